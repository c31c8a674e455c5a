(** Brace depth; tokens of rows. *)
From Coq Require Import String.
From Verif Require Export LemEquiv LemTeX.
Local Open Scope string_scope.
Local Open Scope list_scope.

(** ** The brace scanner *)
Fixpoint tdepth (d : nat) (ts : list token) : option nat :=
  match ts with
  | [] => Some d
  | Word [] :: _ => None
  | Chr c :: ts' => if (c =? open_brace)%N then tdepth (S d) ts'
                    else if (c =? close_brace)%N then match d with O => None | S d' => tdepth d' ts' end
                    else tdepth d ts'
  | _ :: ts' => tdepth d ts'
  end.
Lemma letter_no_brace c : ascii_letter c = true -> (c =? open_brace)%N = false /\ (c =? close_brace)%N = false.
Proof. intro L. split; apply N.eqb_neq; intros ->; discriminate. Qed.
Lemma depth_tokens n : forall s d, length s <= n ->
  brace_depth d s = tdepth d (tokens_from None s)
  /\ (forall w, w <> [] -> brace_depth d s = tdepth d (tokens_from (Some w) s)).
Proof.
  induction n as [|n IH]; intros s d L.
  - destruct s; [|cbn in L; lia]. split; auto. intros [|c w] N; [congruence|reflexivity].
  - destruct s as [|c s]; [split; auto; intros [|x w] N; [congruence|reflexivity]|]. cbn [length] in L.
    assert (N0 : forall d, brace_depth d s = tdepth d (tokens_from None s)) by (intro; apply IH; lia).
    assert (NW : forall d w, w <> [] -> brace_depth d s = tdepth d (tokens_from (Some w) s)) by (intros; apply IH; auto; lia).
    assert (B : brace_depth d (c :: s) = tdepth d (if (c =? backslash)%N then tokens_from (Some []) s else Chr c :: tokens_from None s)).
    { cbn [brace_depth]. destruct (c =? backslash)%N.
      - destruct s as [|c2 s]; [reflexivity|]. cbn [tokens_from]. cbn [length] in L. destruct (ascii_letter c2).
        + apply (IH s d); [lia|discriminate].
        + cbn [tdepth]. apply (IH s d). lia.
      - cbn [tdepth]. destruct (c =? open_brace)%N; auto. destruct (c =? close_brace)%N; auto. destruct d; auto. }
    split; [exact B|]. intros w W. cbn [tokens_from]. destruct (ascii_letter c) eqn:A.
    + cbn [brace_depth]. rewrite letter_not_backslash by auto. destruct (letter_no_brace c A) as [-> ->].
      apply NW. destruct w; discriminate.
    + destruct w as [|x w]; [congruence|]. cbn [tdepth]. exact B.
Qed.
Lemma tdepth_letters d l b : letters l -> tdepth d (map Chr l ++ b) = tdepth d b.
Proof.
  induction 1 as [|c l H L IH]; auto. cbn [map app tdepth]. destruct (letter_no_brace c H) as [-> ->]. auto.
Qed.
Lemma tdepth_group d name b : letters name -> tdepth d (group name ++ b) = tdepth d b.
Proof.
  intro L. unfold group. cbn [app tdepth]. change (open_brace =? open_brace)%N with true. cbn iota.
  rewrite <- app_assoc. rewrite tdepth_letters by auto. reflexivity.
Qed.
Lemma tdepth_ordinary f d t b : ordinary f t = true -> t <> Word [] -> tdepth d (t :: b) = tdepth d b.
Proof.
  destruct t as [[|c w]|c|c]; intros O N; auto; [congruence|]. cbn [ordinary] in O. apply negb_true_iff, orb_false_iff in O as [O1 O2].
  cbn [tdepth]. rewrite O1, O2. auto.
Qed.
Lemma nested_depth f a : nested f a -> ~ In (Word []) a -> forall d b, tdepth d (a ++ b) = tdepth d b.
Proof.
  intro A. induction A as [|t a O A IH|x a A1 IH1 A2 IH2|name x a L A1 IH1 A2 IH2|d1 x d2 a F D1 D2 A1 IH1 A2 IH2]; intros N d b; auto.
  - cbn [app]. rewrite (tdepth_ordinary f); auto; [|intro E; apply N; left; auto]. apply IH. intro I. apply N. right. auto.
  - cbn [app tdepth]. change (open_brace =? open_brace)%N with true. cbn iota. rewrite <- app_assoc. cbn [app].
    rewrite IH1 by (intro I; apply N; right; apply in_or_app; auto). cbn [tdepth].
    change (close_brace =? open_brace)%N with false. change (close_brace =? close_brace)%N with true. cbn iota.
    apply IH2. intro I. apply N. right. apply in_or_app. right. right. auto.
  - cbn [app]. change (tdepth d (Word (lit "begin") :: (group name ++ x ++ Word (lit "end") :: group name ++ a) ++ b)) with
      (tdepth d ((group name ++ x ++ Word (lit "end") :: group name ++ a) ++ b)).
    rewrite <- app_assoc, tdepth_group, <- app_assoc by auto.
    rewrite IH1 by (intro I; apply N; right; apply in_or_app; right; apply in_or_app; auto). cbn [app].
    change (tdepth d (Word (lit "end") :: (group name ++ a) ++ b)) with (tdepth d ((group name ++ a) ++ b)).
    rewrite <- app_assoc, tdepth_group by auto. apply IH2.
    intro I. apply N. right. apply in_or_app; right. apply in_or_app. right. right. apply in_or_app. auto.
  - assert (DO : forall t, delimiter t = true -> ordinary true t = true).
    { intros t D. unfold delimiter in D. apply andb_true_iff in D. tauto. }
    cbn [app]. change (tdepth d (Word (lit "left") :: d1 :: (x ++ Word (lit "right") :: d2 :: a) ++ b)) with
      (tdepth d (d1 :: (x ++ Word (lit "right") :: d2 :: a) ++ b)).
    rewrite (tdepth_ordinary true); auto; [|intro E; apply N; right; left; auto].
    rewrite <- app_assoc. rewrite IH1 by (intro I; apply N; right; right; apply in_or_app; auto). cbn [app].
    change (tdepth d (Word (lit "right") :: d2 :: a ++ b)) with (tdepth d (d2 :: a ++ b)).
    rewrite (tdepth_ordinary true); auto; [|intro E; apply N; right; right; apply in_or_app; right; right; left; auto].
    apply IH2. intro I. apply N. right. right. apply in_or_app. right. right. right. auto.
Qed.
Lemma good_balance f s : good f s -> braces_balance s.
Proof.
  intros (N & W & _). unfold braces_balance. destruct (depth_tokens (length s) s 0 (le_n _)) as [-> _].
  change (tokens_from None s) with (tex_tokens s). rewrite <- (app_nil_r (tex_tokens s)). rewrite (nested_depth f); auto.
  intro I. assert (X : safe_word f [] = true) by (apply W; auto; destruct f; reflexivity). apply safe_nonempty in X. auto.
Qed.

(** ** The theorems about nesting *)
Lemma plain_ok t : plain_tree t -> forall u, visits t u -> element_ok false u.
Proof. auto. Qed.
Lemma latex_balance t s : plain_tree t -> latex_of t = Ok s -> braces_balance s.
Proof. intros P E. apply (good_balance false), (latex_good false t); auto. Qed.
Lemma latex_nested t s : plain_tree t -> latex_of t = Ok s -> nested false (tex_tokens s).
Proof. intros P E. apply (latex_good false t); auto. Qed.
Lemma latex_fences t s : fenced_tree t -> latex_of t = Ok s -> nested true (tex_tokens s).
Proof. intros P E. apply (latex_good true t); auto. Qed.
Lemma convert_balance wc ps xml d h s : read_as ps xml d -> (forall t, In t (math_trees d) -> plain_tree t) ->
  snd (mathml_to_latex wc ps xml h) = Ok s -> braces_balance s.
Proof. intros R P E. rewrite (convert_read_snd wc ps xml d h R) in E. apply (good_balance false), (document_good false d); auto. Qed.
Lemma convert_nested wc ps xml d h s : read_as ps xml d -> (forall t, In t (math_trees d) -> plain_tree t) ->
  snd (mathml_to_latex wc ps xml h) = Ok s -> nested false (tex_tokens s).
Proof. intros R P E. rewrite (convert_read_snd wc ps xml d h R) in E. apply (document_good false d); auto. Qed.
Lemma convert_fences wc ps xml d h s : read_as ps xml d -> (forall t, In t (math_trees d) -> fenced_tree t) ->
  snd (mathml_to_latex wc ps xml h) = Ok s -> nested true (tex_tokens s).
Proof. intros R P E. rewrite (convert_read_snd wc ps xml d h R) in E. apply (document_good true d); auto. Qed.

(** ** C45 *)
Lemma unfinished_mode s : unfinished s <-> mode None s = Some [].
Proof.
  unfold unfinished. rewrite tokens_done. split.
  - intros (ts & E). destruct (mode None s) as [w|]; cbn [flush] in E.
    + apply app_end in E as [_ E]. injection E as ->. reflexivity.
    + exfalso. rewrite app_nil_r in E.
      assert (X : forall s m ts, done m s = ts ++ [Word []] -> False).
      { clear. induction s as [|c s IH]; intros m ts E; [destruct ts; discriminate|]. cbn [done] in E.
        assert (C : forall t l, t <> Word [] -> t :: l = ts ++ [Word []] -> exists ts', l = ts' ++ [Word []]).
        { intros t l N X. destruct ts as [|x ts]; [injection X as -> _; congruence|]. injection X as _ ->. eauto. }
        destruct m as [w|].
        - destruct (ascii_letter c); [eauto|]. destruct w as [|x w].
          + apply C in E as (ts' & E); [eauto|discriminate].
          + apply C in E as (ts' & E); [|discriminate]. destruct (c =? backslash)%N; [eauto|]. 
            destruct ts' as [|y ts']; [discriminate|]. injection E as _ E. eauto.
        - destruct (c =? backslash)%N; [eauto|]. apply C in E as (ts' & E); [eauto|discriminate]. }
      eauto.
  - intro M. rewrite M. exists (done None s). reflexivity.
Qed.
Lemma spaced_start c s : is_space c = true -> no_letter_first (c :: s).
Proof. intro S. apply space_no_letter. auto. Qed.
Lemma tokens_gapped gap ss : no_letter_first gap -> mode None gap = None -> gap <> [] ->
  (forall s, In s ss -> ~ unfinished s) ->
  tex_tokens (join gap ss) = gapped (tex_tokens gap) (map tex_tokens ss)
  /\ (ss <> [] -> exists s, In s ss /\ (mode None (join gap ss) = Some [] -> mode None s = Some [])).
Proof.
  intros L M N U. induction ss as [|s ss IH]; [split; [reflexivity|congruence]|].
  assert (IH' : tex_tokens (join gap ss) = gapped (tex_tokens gap) (map tex_tokens ss)
    /\ (ss <> [] -> exists s, In s ss /\ (mode None (join gap ss) = Some [] -> mode None s = Some []))) by (apply IH; intros x I; apply U; cbn; auto).
  clear IH. destruct IH' as [IH1 IH2]. destruct ss as [|s2 ss].
  - split; [reflexivity|]. intros _. exists s. split; [cbn; auto|auto].
  - change (join gap (s :: s2 :: ss)) with (s ++ gap ++ join gap (s2 :: ss)).
    assert (MS : mode None s <> Some []) by (intro E; apply unfinished_mode in E; revert E; apply U; cbn; auto).
    split.
    + rewrite tokens_app_nonletter; auto; [|destruct gap; [congruence|exact L]]. rewrite tokens_app_none by auto. rewrite IH1. reflexivity.
    + intros _. destruct IH2 as (x & I & X); [discriminate|]. exists x. split; [cbn in *; tauto|]. intro E. apply X.
      rewrite !mode_app in E.
      assert (G : mode (mode None s) gap = None).
      { destruct (mode None s) as [w|]; auto. destruct gap as [|c gap]; [congruence|]. rewrite mode_pending_cons; auto.
        intros ->. apply MS. reflexivity. }
      rewrite G in E. auto.
Qed.
Lemma tokens_enclosed before gap after ss : mode None before = None -> no_letter_first after -> no_letter_first gap -> mode None gap = None -> gap <> [] ->
  (forall s, In s ss -> ~ unfinished s) ->
  tex_tokens (before ++ join gap ss ++ after) = tex_tokens before ++ gapped (tex_tokens gap) (map tex_tokens ss) ++ tex_tokens after.
Proof.
  intros B A L M N U. destruct (tokens_gapped gap ss L M N U) as [T X]. rewrite tokens_app_none by auto. f_equal.
  rewrite tokens_app_nonletter; auto; [rewrite T; reflexivity|]. intro E. destruct ss as [|s ss]; [discriminate|].
  destruct X as (x & I & X); [discriminate|]. apply X, unfinished_mode in E. revert E. apply U. auto.
Qed.
Lemma notation_ends : forallb (fun e : string * (string * string) =>
  match mode None (lit (fst (snd e))) with None => true | _ => false end
  && match lit (snd (snd e)) with c :: _ => negb (ascii_letter c) | [] => true end) notations = true.
Proof. vm_compute. reflexivity. Qed.
Lemma rows_tokens n v ch a ss before gap after out : converts ch ss -> (forall s, In s ss -> ~ unfinished s) ->
  row_layout a n before gap after -> latex_of (T n v ch a) = Ok out ->
  tex_tokens out = tex_tokens before ++ gapped (tex_tokens gap) (map tex_tokens ss) ++ tex_tokens after.
Proof.
  intros C U R E. assert (TE : forall b g af, out = b ++ join g ss ++ af -> mode None b = None -> no_letter_first af -> no_letter_first g ->
    mode None g = None -> g <> [] -> tex_tokens out = tex_tokens b ++ gapped (tex_tokens g) (map tex_tokens ss) ++ tex_tokens af).
  { intros b g af ? ? ? ? ? ?. subst out. apply tokens_enclosed; auto. }
  pose proof (rseq_kids ch ss C) as RK.
  destruct R as [n N| | | |Tg|name before after I D].
  - rewrite latex_node' in E by (apply (row_not n "mtable" N); cbn; auto 30). unfold node in E.
    rewrite (row_tag_of n N), RK in E. cbn [rbind] in E. apply TE; auto; try discriminate; try reflexivity.
    rewrite app_nil_r. cbn [app]. injection E as <-. reflexivity.
  - rewrite latex_node' in E by reflexivity. unfold node in E. change (tag_of (lit "msqrt")) with TagSqrt in E. cbn iota in E. rewrite RK in E.
    cbn [rbind] in E. apply TE; auto; try discriminate; try reflexivity.
    injection E as <-. unfold braced. change (lit "\sqrt{") with (lit "\sqrt" ++ lit "{"). rewrite <- app_assoc. reflexivity.
  - rewrite latex_node' in E by reflexivity. unfold node in E. change (tag_of (lit "merror")) with TagError in E. cbn iota in E. rewrite RK in E.
    cbn [rbind] in E. apply TE; auto; try discriminate; try reflexivity.
    injection E as <-. unfold braced. change (lit "\color{red}{") with (lit "\color{red}" ++ lit "{"). rewrite <- app_assoc. reflexivity.
  - rewrite latex_node' in E by reflexivity. unfold node in E. change (tag_of (lit "mtr")) with TagTr in E. cbn iota in E. rewrite RK in E.
    cbn [rbind] in E. apply TE; auto; try discriminate; try reflexivity. rewrite app_nil_r. cbn [app]. congruence.
  - assert (E2 : latex_of (T (lit "maction") v ch a) = Ok (with_gaps (fun _ => lit " \Longrightarrow ") ss)).
    { apply maction_toggle; auto. cbn in Tg. intuition. }
    rewrite E in E2. apply (f_equal (fun r => match r with Ok x => x | _ => [] end)) in E2. cbn iota in E2. subst out. apply TE; auto; try discriminate; try reflexivity. rewrite app_nil_r, join_gaps. reflexivity.
  - rewrite (menclose_known name before after v ch a ss C I D) in E. pose proof notation_ends as X. rewrite forallb_forall in X.
    specialize (X _ I). cbn [fst snd] in X. apply andb_true_iff in X as [X1 X2].
    apply TE; try discriminate; try reflexivity.
    + rewrite join_gaps. congruence.
    + destruct (mode None (lit before)); [discriminate|auto].
    + destruct (lit after); [exact Logic.I|]. apply negb_true_iff. auto.
Qed.
Lemma table_tokens v rows a ss : Forall2 (fun row s => latex_of (T (lit "mtable") [] [row] []) = Ok s) rows ss -> attr a "innerTable" = [] ->
  (forall s, In s ss -> ~ unfinished s) ->
  exists out, latex_of (T (lit "mtable") v rows a) = Ok out /\ tex_tokens out = gapped (tex_tokens (lit " \\" ++ nl)) (map tex_tokens ss).
Proof.
  intros F A U. eexists. split; [apply mtable_rows; eauto|]. rewrite <- join_gaps. apply tokens_gapped; auto; try discriminate; reflexivity.
Qed.
Lemma filter_spaced a b : spaced a b -> filter (fun t => negb (blank t)) a = filter (fun t => negb (blank t)) b.
Proof.
  induction 1 as [|t a b S IH|c a b C S IH|c a b C S IH]; auto; cbn [filter blank].
  - rewrite IH. reflexivity.
  - rewrite C. auto.
  - rewrite C. auto.
Qed.
Lemma math_tokens v ch a ss : converts ch ss -> (forall s, In s ss -> ~ unfinished s /\ no_escaped_space (tex_tokens s)) ->
  exists out, latex_of (T (lit "math") v ch a) = Ok out
  /\ filter (fun t => negb (blank t)) (tex_tokens out) = concat (map (fun s => filter (fun t => negb (blank t)) (tex_tokens s)) ss).
Proof.
  intros C U. rewrite latex_node' by reflexivity. unfold node. change (tag_of (lit "math")) with TagMath. cbn iota.
  rewrite (rseq_kids ch ss C). cbn [rbind]. eexists. split; [reflexivity|].
  assert (T : tex_tokens (join (lit " ") ss) = gapped [Chr 32%N] (map tex_tokens ss)).
  { apply (tokens_gapped (lit " ") ss); try discriminate; try reflexivity. intros s I. apply U. auto. }
  assert (NE : no_escaped_space (tex_tokens (join (lit " ") ss))).
  { rewrite T. clear T C. induction ss as [|s ss IH]; [intros c []|]. cbn [map].
    assert (S0 : no_escaped_space (tex_tokens s)) by (apply U; cbn; auto).
    assert (S1 : no_escaped_space (gapped [Chr 32%N] (map tex_tokens ss))) by (apply IH; intros x I; apply U; cbn; auto).
    destruct ss as [|s2 ss]; [exact S0|]. change (no_escaped_space (tex_tokens s ++ Chr 32%N :: gapped [Chr 32%N] (map tex_tokens (s2 :: ss)))).
    apply no_escaped_app; auto. intros c [I|I]; [discriminate|auto]. }
  rewrite <- (filter_spaced _ _ (tokens_squeeze _ _ (le_n _) NE)). rewrite T. clear.
  induction ss as [|s ss IH]; [reflexivity|]. cbn [map concat]. destruct ss as [|s2 ss]; [cbn; rewrite app_nil_r; reflexivity|].
  change (gapped [Chr 32%N] (tex_tokens s :: map tex_tokens (s2 :: ss))) with (tex_tokens s ++ Chr 32%N :: gapped [Chr 32%N] (map tex_tokens (s2 :: ss))).
  rewrite filter_app. f_equal. cbn [filter]. exact IH.
Qed.
Lemma plain_finished t s : plain_tree t -> latex_of t = Ok s -> ~ unfinished s /\ no_escaped_space (tex_tokens s).
Proof.
  intros P E. assert (G : good false s) by (eapply latex_good; eauto). split; [|apply G].
  rewrite unfinished_mode. eapply good_mode; eauto.
Qed.

(** ** Counting *)
Lemma occurrences_app w a b : occurrences w (a ++ b) = occurrences w a + occurrences w b.
Proof. unfold occurrences. rewrite filter_app, app_length. auto. Qed.
Lemma occurrences_chars w l : occurrences w (map Chr l) = 0.
Proof. induction l; auto. Qed.
Lemma occurrences_chr w c b : occurrences w (Chr c :: b) = occurrences w b.
Proof. reflexivity. Qed.
Lemma occurrences_word w x b : occurrences w (Word x :: b) = (if str_eqb x (lit w) then 1 else 0) + occurrences w b.
Proof. unfold occurrences. cbn [filter]. destruct (str_eqb x (lit w)); reflexivity. Qed.
Lemma occurrences_group w l : occurrences w (group l) = 0.
Proof. unfold group. rewrite occurrences_chr, occurrences_app, occurrences_chars. reflexivity. Qed.
Lemma occurrences_ordinary f w t b : ordinary f t = true -> str_in (lit w) (special_words f) = true -> occurrences w (t :: b) = occurrences w b.
Proof.
  intros O I. destruct t as [x|x|x]; auto. rewrite occurrences_word. destruct (str_eqb x (lit w)) eqn:E; auto.
  apply str_eqb_eq in E. subst x. cbn [ordinary] in O. rewrite I in O. discriminate.
Qed.
Lemma nested_counts f a : nested f a -> occurrences "begin" a = occurrences "end" a
  /\ (f = true -> occurrences "left" a = occurrences "right" a).
Proof.
  assert (DO : forall w t b, delimiter t = true -> str_in (lit w) (special_words true) = true -> occurrences w (t :: b) = occurrences w b).
  { intros w t b D I. apply andb_true_iff in D as [D _]. apply (occurrences_ordinary true); auto. }
  intro A. induction A as [|t a O A IH|x a A1 IH1 A2 IH2|name x a L A1 IH1 A2 IH2|d1 x d2 a F D1 D2 A1 IH1 A2 IH2]; auto.
  - split; [|intros ->]; rewrite !(occurrences_ordinary _ _ t _ O) by (try destruct f; reflexivity); [tauto|].
    apply IH; auto.
  - split; [|intros F]; rewrite !occurrences_chr, !occurrences_app, !occurrences_chr.
    + destruct IH1 as [-> _], IH2 as [-> _]. reflexivity.
    + destruct IH1 as [_ E1], IH2 as [_ E2]. rewrite E1, E2 by auto. reflexivity.
  - split; [|intro F]; rewrite !occurrences_word, !occurrences_app, !occurrences_word, !occurrences_app, !occurrences_group.
    + destruct IH1 as [-> _], IH2 as [-> _]. cbn [str_eqb]. 
      change (str_eqb (lit "begin") (lit "begin")) with true. change (str_eqb (lit "begin") (lit "end")) with false.
      change (str_eqb (lit "end") (lit "begin")) with false. change (str_eqb (lit "end") (lit "end")) with true. lia.
    + destruct IH1 as [_ E1], IH2 as [_ E2]. rewrite E1, E2 by auto. reflexivity.
  - assert (FT : f = true) by auto. subst f.
    split; [|intros _]; rewrite !occurrences_word, !(DO _ d1), !occurrences_app, !occurrences_word, !(DO _ d2) by (auto; reflexivity).
    + destruct IH1 as [-> _], IH2 as [-> _]. reflexivity.
    + destruct IH1 as [_ E1], IH2 as [_ E2]. rewrite E1, E2 by auto.
      change (str_eqb (lit "left") (lit "left")) with true. change (str_eqb (lit "left") (lit "right")) with false.
      change (str_eqb (lit "right") (lit "left")) with false. change (str_eqb (lit "right") (lit "right")) with true. lia.
Qed.

(** ** Deciding the conditions, for the examples *)
Lemma visits_preorder t u : visits t u -> In u (preorder t).
Proof.
  induction 1 as [t|t c u I V IH]; [destruct t; cbn; auto|]. destruct t as [n v ch a]. cbn [preorder]. right. apply in_flat_map.
  exists c. split; auto. revert I. unfold visited. destruct (str_in _ _); [intros []|]. 
  assert (P1 : forall i, In c (pick ch i) -> In c ch).
  { intros i. unfold pick. destruct (nth_error ch i) eqn:E; [|intros []]. intros [<-|[]]. eapply nth_error_In; eauto. }
  destruct (_ && _); [destruct ch; cbn; tauto|]. destruct (str_eqb _ _); auto.
  intro I. rewrite !in_app_iff in I. destruct I as [I|[I|I]]; [eauto| |];
    unfold pick_pair in I; destruct (prescripts ch) as [[? ?]|], (postscripts ch) as [[? ?]|]; try (destruct I; fail); rewrite ?in_app_iff in I; destruct I; eauto.
Qed.
Definition plainb (s : str) : bool := forallb (fun c => negb ((c =? backslash) || (c =? open_brace) || (c =? close_brace))%N) s.
Lemma plainb_plain s : plainb s = true -> plain s.
Proof.
  unfold plainb, plain. rewrite forallb_forall. intros H c I. specialize (H c I). apply negb_true_iff in H.
  rewrite !orb_false_iff in H. rewrite <- !N.eqb_neq. tauto.
Qed.
Definition plain_elementb (u : tree) : bool :=
  implb (str_in (t_name u) token_tags) (plainb (t_value u))
  && implb (str_eqb (t_name u) (lit "mfenced"))
      (plainb (attr (t_attributes u) "separators")
       && (plainb (attr (t_attributes u) "open") && plainb (attr (t_attributes u) "close")
           || str_eqb (attr (t_attributes u) "open") (lit "{") && str_eqb (attr (t_attributes u) "close") (lit "}"))).
Lemma str_in_In s l : In s l -> str_in s l = true.
Proof. intro I. unfold str_in. apply existsb_exists. exists s. split; auto. apply str_eqb_refl. Qed.
Lemma plain_elementb_sound u : plain_elementb u = true -> plain_element u.
Proof.
  unfold plain_elementb, plain_element. rewrite andb_true_iff. intros [H1 H2]. split.
  - intro I. rewrite (str_in_In _ _ I) in H1. apply plainb_plain. auto.
  - intro E. rewrite E, str_eqb_refl in H2. cbn [implb] in H2. apply andb_true_iff in H2 as [H2 H3]. split; [apply plainb_plain; auto|].
    apply orb_true_iff in H3 as [H3|H3]; apply andb_true_iff in H3 as [H3 H4]; [left; split; apply plainb_plain; auto|right].
    apply str_eqb_eq in H3, H4. auto.
Qed.
Lemma plain_check t : forallb plain_elementb (preorder t) = true -> plain_tree t.
Proof. rewrite forallb_forall. intros H u V. apply plain_elementb_sound, H, visits_preorder. auto. Qed.
Definition good_fenceb (s : str) : bool := match s with c :: _ => negb (ascii_letter c) && negb (is_space c) | [] => true end.
Lemma good_fenceb_sound s : good_fenceb s = true -> good_fence s.
Proof. intros H c s' ->. cbn in H. rewrite andb_true_iff, !negb_true_iff in H. auto. Qed.
Definition fenced_elementb (u : tree) : bool :=
  implb (str_in (t_name u) token_tags) (plainb (t_value u))
  && implb (str_eqb (t_name u) (lit "mfenced"))
      (plainb (attr (t_attributes u) "separators") && plainb (attr (t_attributes u) "open") && plainb (attr (t_attributes u) "close")
       && good_fenceb (attr (t_attributes u) "open") && good_fenceb (attr (t_attributes u) "close")
       && implb (existsb has_table (t_children u))
           (str_eqb (attr (t_attributes u) "open") (attr (t_attributes u) "close")
            || truthy (attr (t_attributes u) "open") && truthy (attr (t_attributes u) "close")))
  && implb (str_eqb (t_name u) (lit "menclose")) (negb (str_in (attr (t_attributes u) "notation") (map lit ["left"; "right"; "madruwb"]))).
Lemma fenced_elementb_sound u : fenced_elementb u = true -> fenced_element u.
Proof.
  unfold fenced_elementb, fenced_element. rewrite !andb_true_iff. intros [[H1 H2] H3]. split; [|split].
  - intro I. rewrite (str_in_In _ _ I) in H1. apply plainb_plain. auto.
  - intro E. rewrite E, str_eqb_refl in H2. cbn [implb] in H2. rewrite !andb_true_iff in H2. destruct H2 as [[[[[A B] C] D] F] G].
    split; [apply plainb_plain; auto|]. split; [apply plainb_plain; auto|]. split; [apply plainb_plain; auto|].
    split; [apply good_fenceb_sound; auto|]. split; [apply good_fenceb_sound; auto|]. intro Tb. rewrite Tb in G. cbn [implb] in G.
    apply orb_true_iff in G as [G|G]; [left; apply str_eqb_eq; auto|right]. apply andb_true_iff in G as [P Q].
    split; intro X; [rewrite X in P|rewrite X in Q]; discriminate.
  - intros E I. rewrite E, str_eqb_refl, (str_in_In _ _ I) in H3. discriminate.
Qed.
Lemma fenced_check t : forallb fenced_elementb (preorder t) = true -> fenced_tree t.
Proof. rewrite forallb_forall. intros H u V. apply fenced_elementb_sound, H, visits_preorder. auto. Qed.
