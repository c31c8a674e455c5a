(** Token and layout properties from the reference rendering. *)
From Coq Require Import String.
From Verif Require Export LemMain LemDoc2 SpecText.
Local Open Scope string_scope.
Local Open Scope list_scope.

Lemma latex_node n v ch a :
  latex_of (T n v ch a) = node false n v (map (fun c => (c, render (is_table n) c)) ch) a.
Proof. rewrite latex_of_render. reflexivity. Qed.
(** For elements other than mtable the children are converted as if alone. *)
Lemma latex_node' n v ch a : is_table n = false ->
  latex_of (T n v ch a) = node false n v (map (fun c => (c, latex_of c)) ch) a.
Proof.
  intro H. rewrite latex_node, H. f_equal. apply map_ext. intro. rewrite latex_of_render. auto.
Qed.
Lemma rseq_kids ch ss : converts ch ss -> rseq (map snd (map (fun c => (c, latex_of c)) ch)) = Ok ss.
Proof.
  intro C. rewrite map_map. cbn [snd]. apply rseq_Forall2. apply Forall2_map_l. exact C.
Qed.
Lemma map_fst_kids ch : map fst (map (fun c => (c, latex_of c)) ch) = ch.
Proof. rewrite map_map. cbn [fst]. apply map_id. Qed.

(** ** Tokens *)
Lemma mi_latex_of v ch a : latex_of (T (lit "mi") v ch a) = Ok (mi_latex v a).
Proof. rewrite latex_node. reflexivity. Qed.
Lemma mo_latex_of v ch a : latex_of (T (lit "mo") v ch a) = Ok (mo_latex v).
Proof. rewrite latex_node. reflexivity. Qed.
Lemma mn_latex_of v ch a : latex_of (T (lit "mn") v ch a) = Ok (mn_latex v).
Proof. rewrite latex_node. reflexivity. Qed.
Lemma mtext_latex_of v ch a : latex_of (T (lit "mtext") v ch a) = Ok (mtext_latex v a).
Proof. rewrite latex_node. reflexivity. Qed.

Lemma token_words tag v v' ch a : In tag ["mi"; "mo"; "mn"] -> words v = words v' ->
  latex_of (T (lit tag) v ch a) = latex_of (T (lit tag) v' ch a).
Proof.
  intros I W. assert (S : squeeze v = squeeze v') by (unfold squeeze; rewrite W; auto).
  destruct I as [<-|[<-|[<-|[]]]].
  - rewrite !mi_latex_of. unfold mi_latex. rewrite S. auto.
  - rewrite !mo_latex_of. unfold mo_latex. rewrite S. auto.
  - rewrite !mn_latex_of. unfold mn_latex. rewrite S. auto.
Qed.

(** C26 *)
Lemma utf8_idem w : utf8_convert (utf8_convert w) = utf8_convert w.
Proof. rewrite !utf8_convert_spec. apply accent_or_font_idem. Qed.
Lemma utf8_keeps w : utf8_convert w <> w ->
  exists c, w = [c] /\ (dget vowels_with_accents w <> None \/ dget special_font_chars w <> None).
Proof.
  rewrite utf8_convert_spec. unfold accent_or_font. intro H.
  destruct (dget vowels_with_accents w) as [a|] eqn:V.
  - apply vowels_keys in V as (K & _). destruct w as [|c [|]]; try discriminate. exists c. split; auto. left; discriminate.
  - destruct (dget special_font_chars w) as [f|] eqn:F; [|congruence].
    apply special_keys in F. destruct w as [|c [|]]; try discriminate. exists c. split; auto. right; discriminate.
Qed.
Lemma accent_nonempty w : w <> [] -> accent_or_font w <> [].
Proof.
  intro H. unfold accent_or_font. destruct (dget vowels_with_accents w) as [a|].
  - destruct (dget accent_to_ltx_cmd (ac_accent a)); auto. discriminate.
  - destruct (dget special_font_chars w); auto. discriminate.
Qed.
Lemma utf8_nonempty w : w <> [] -> utf8_convert w <> [].
Proof. rewrite utf8_convert_spec. apply accent_nonempty. Qed.

(** C27 *)
Definition ascii_char (c : N) : bool := (c <? 128)%N.
Lemma number_keys k v : dget math_number_by_glyph k = Some v -> forallb ascii_char k = false.
Proof.
  intro G. apply (dget_keys math_number_by_glyph (fun k v => negb (forallb ascii_char k))) in G.
  - destruct (forallb _ k); auto; discriminate.
  - vm_compute. reflexivity.
Qed.
Lemma words_chars s w c : In w (words s) -> In c w -> In c s.
Proof.
  unfold words. intros I J. apply filter_In in I as [I _]. revert w I J.
  induction s as [|d s IH]; cbn [fields]; intros w I J.
  - destruct I as [<-|[]]. destruct J.
  - destruct (is_space d).
    + destruct I as [<-|I]; [destruct J|]. right. eapply IH; eauto.
    + destruct (fields s) as [|f fs] eqn:F.
      * destruct I as [<-|[]]. cbn in J. cbn. tauto.
      * destruct I as [<-|I]; [destruct J as [<-|J]; [cbn; auto|]|]; right; eapply IH; eauto; cbn; auto.
Qed.
Lemma join_chars sep l c : In c (join sep l) -> In c sep \/ exists w, In w l /\ In c w.
Proof.
  induction l as [|w l IH]; [intros []|]. destruct l as [|w2 l].
  - cbn. right. exists w. auto.
  - change (join sep (w :: w2 :: l)) with (w ++ sep ++ join sep (w2 :: l)). rewrite !in_app_iff. intros [H|[H|H]]; auto.
    + right. exists w. cbn; auto.
    + destruct (IH H) as [K|(x & K & K')]; auto. right. exists x. cbn in *; auto.
Qed.
Lemma squeeze_chars s c : In c (squeeze s) -> c = 32%N \/ In c s.
Proof.
  unfold squeeze. intro I. apply join_chars in I as [I|(w & I & J)].
  - destruct I as [<-|[]]; auto.
  - right. eapply words_chars; eauto.
Qed.
Lemma mn_plain v : (forall d, dget math_number_by_glyph (squeeze v) <> Some d) -> mn_latex v = squeeze v.
Proof.
  intro H. unfold mn_latex, first_entry. destruct (dget math_number_by_glyph (squeeze v)) as [[|c cs]|] eqn:E; auto.
  destruct (H (c :: cs)); auto.
Qed.
Lemma mn_ascii v : (forall c, In c v -> (c < 128)%N) -> mn_latex v = squeeze v.
Proof.
  intro A. apply mn_plain. intros d G. apply number_keys in G.
  assert (X : forallb ascii_char (squeeze v) = true).
  { apply forallb_forall. intros c I. apply N.ltb_lt. apply squeeze_chars in I as [->|I]; [lia|auto]. }
  congruence.
Qed.

(** C28 *)
Lemma squeeze_nonempty v : words v <> [] -> squeeze v <> [].
Proof. intro H. apply canonical_join; auto. apply words_word. Qed.
Lemma symbol_nonempty ts w : w <> [] -> symbol ts w <> [].
Proof.
  intro H. unfold symbol. destruct (first_entry ts w) as [s|] eqn:F.
  - apply first_entry_some in F as (d & _ & _ & Tr). destruct s; discriminate.
  - apply accent_nonempty; auto.
Qed.
Lemma mo_nonempty v ch a : words v <> [] -> exists c s, latex_of (T (lit "mo") v ch a) = Ok (c :: s).
Proof.
  intro H. rewrite mo_latex_of. apply squeeze_nonempty in H. apply (symbol_nonempty mo_tables) in H.
  unfold mo_latex. destruct (symbol mo_tables (squeeze v)) as [|c s]; [congruence|eauto].
Qed.
Lemma mo_raw v ch a : words v <> [] -> first_entry mo_tables (squeeze v) = None -> accent_or_font (squeeze v) = squeeze v ->
  latex_of (T (lit "mo") v ch a) = Ok (squeeze v).
Proof. intros _ E F. rewrite mo_latex_of. unfold mo_latex, symbol. rewrite E, F. auto. Qed.

Lemma mo_empty_entry v ch a : dget all_math_operators_by_char (squeeze v) = Some [] \/ dget all_math_operators_by_glyph (squeeze v) = Some [] ->
  latex_of (T (lit "mo") v ch a) = Ok (squeeze v).
Proof.
  intro H. rewrite mo_latex_of. unfold mo_latex. f_equal. destruct H as [H|H].
  - apply (dget_keys all_math_operators_by_char (fun k x => truthy x || str_eqb (symbol mo_tables k) k)) in H; [|vm_compute; reflexivity].
    apply str_eqb_eq. exact H.
  - apply (dget_keys all_math_operators_by_glyph (fun k x => truthy x || str_eqb (symbol mo_tables k) k)) in H; [|vm_compute; reflexivity].
    apply str_eqb_eq. exact H.
Qed.

(** C29 *)
Lemma runs_concat s : concat (map snd (text_runs s)) = s.
Proof.
  induction s as [|c s IH]; auto. cbn [text_runs]. destruct (plain_text_char c).
  - destruct (text_runs s) as [|[[] w] rest] eqn:E; cbn in *; rewrite <- IH; auto.
  - cbn. rewrite IH. auto.
Qed.
Lemma runs_kinds s b w : In (b, w) (text_runs s) ->
  if b then w <> [] /\ Forall (fun c => plain_text_char c = true) w else exists c, w = [c] /\ plain_text_char c = false.
Proof.
  revert b w. induction s as [|c s IH]; intros b w I; [destruct I|]. cbn [text_runs] in I.
  destruct (plain_text_char c) eqn:P.
  - destruct (text_runs s) as [|[[] w0] rest] eqn:E.
    + destruct I as [I|[]]; inversion I; subst. split; [discriminate|auto].
    + destruct I as [I|I]; [inversion I; subst|apply IH; cbn; auto].
      split; [discriminate|]. constructor; auto. apply (IH true w0). cbn; auto.
    + destruct I as [I|I]; [inversion I; subst; split; [discriminate|auto]|apply IH; auto].
  - destruct I as [I|I]; [inversion I; subst; eauto|apply IH; auto].
Qed.
Lemma runs_maximal s l1 w1 w2 l2 : text_runs s <> l1 ++ (true, w1) :: (true, w2) :: l2.
Proof.
  revert l1 w1 w2 l2. induction s as [|c s IH]; intros l1 w1 w2 l2 E; [destruct l1; discriminate|]. cbn [text_runs] in E.
  destruct (plain_text_char c).
  - destruct (text_runs s) as [|[[] w0] rest] eqn:R.
    + destruct l1 as [|? [|]]; discriminate.
    + destruct l1 as [|x l1]; cbn in E; inversion E; subst.
      * eapply (IH [] w0 w2 l2). reflexivity.
      * eapply (IH ((true, w0) :: l1) w1 w2 l2). reflexivity.
    + destruct l1 as [|x l1]; cbn in E; inversion E; subst. eapply (IH l1 w1 w2 l2). auto.
  - destruct l1 as [|x l1]; cbn in E; inversion E; subst. eapply IH; eauto.
Qed.

(** ** Layout *)
Lemma with_gaps_cons gap s s2 ss : with_gaps gap (s :: s2 :: ss) = s ++ gap 0 ++ with_gaps (fun i => gap (S i)) (s2 :: ss).
Proof.
  unfold with_gaps. change (length (s :: s2 :: ss)) with (S (length (s2 :: ss))).
  remember (length (s2 :: ss)) as k eqn:K. destruct k as [|k]; [discriminate|].
  change (seq 0 (S (S k))) with (0 :: seq 1 (S k)). rewrite <- seq_shift. cbn [map concat nth]. rewrite <- app_assoc.
  change (Nat.ltb 1 (S (S k))) with true. cbn iota. do 2 f_equal. rewrite map_map. reflexivity.
Qed.
Lemma with_gaps_ext g g' ss : (forall i, g i = g' i) -> with_gaps g ss = with_gaps g' ss.
Proof. intro E. unfold with_gaps. f_equal. apply map_ext. intro i. rewrite E. auto. Qed.
Lemma with_gaps_one g s : with_gaps g [s] = s.
Proof. unfold with_gaps. cbn. rewrite !app_nil_r. auto. Qed.
Lemma join_gaps sep ss : join sep ss = with_gaps (fun _ => sep) ss.
Proof.
  induction ss as [|s ss IH]; auto. destruct ss as [|s2 ss].
  - rewrite with_gaps_one. auto.
  - rewrite with_gaps_cons, <- IH. reflexivity.
Qed.
Lemma fence_gaps ss : forall seps, fence_join (map (fun c => [c]) seps) ss = with_gaps (separator seps) ss.
Proof.
  induction ss as [|s ss IH]; intro seps; auto. destruct ss as [|s2 ss].
  - rewrite with_gaps_one. destruct seps; auto.
  - rewrite with_gaps_cons. destruct seps as [|c [|c2 seps]]; cbn [map fence_join].
    + f_equal. f_equal. apply (IH []).
    + f_equal. cbn [separator length Nat.sub nth]. replace (Nat.min 0 0) with 0 by auto. cbn [nth]. f_equal.
      rewrite (with_gaps_ext _ (separator [c])); [apply (IH [c])|]. intro i. unfold separator. cbn [length Nat.sub]. rewrite !Nat.min_0_r. auto.
    + f_equal. cbn [separator]. rewrite Nat.min_0_l. cbn [nth]. f_equal.
      rewrite (with_gaps_ext _ (separator (c2 :: seps))); [apply (IH (c2 :: seps))|]. intro i. unfold separator. cbn [length Nat.sub].
      rewrite !Nat.sub_0_r. destruct (Nat.min_spec (S i) (S (length seps))) as [[L ->]|[L ->]]; cbn [nth];
      destruct (Nat.min_spec i (length seps)) as [[L2 ->]|[L2 ->]]; auto; try lia; try (replace i with (length seps) by lia; auto).
Qed.

Lemma fenced_plain v ch a ss : converts ch ss -> existsb has_table ch = false ->
  latex_of (T (lit "mfenced") v ch a) =
  Ok (lit "\left" ++ default (attr a "open") "(" ++ with_gaps (separator (attr a "separators")) ss
      ++ lit "\right" ++ default (attr a "close") ")").
Proof.
  intros C N. rewrite latex_node' by reflexivity. unfold node. change (tag_of (lit "mfenced")) with TagFenced. cbn iota.
  rewrite (rseq_kids ch ss C), map_fst_kids, N. cbn [rbind]. rewrite fence_gaps. reflexivity.
Qed.
Lemma fenced_table v ch a ss : converts ch ss -> existsb has_table ch = true ->
  latex_of (T (lit "mfenced") v ch a) = Ok (fenced_matrix (attr a "open") (attr a "close") ss).
Proof.
  intros C N. rewrite latex_node' by reflexivity. unfold node. change (tag_of (lit "mfenced")) with TagFenced. cbn iota.
  rewrite (rseq_kids ch ss C), map_fst_kids, N. reflexivity.
Qed.
Lemma mtr_layout v ch a ss : converts ch ss -> latex_of (T (lit "mtr") v ch a) = Ok (with_gaps (fun _ => lit " & ") ss).
Proof.
  intro C. rewrite latex_node' by reflexivity. unfold node. change (tag_of (lit "mtr")) with TagTr. cbn iota.
  rewrite (rseq_kids ch ss C). cbn [rbind]. rewrite join_gaps. auto.
Qed.
Lemma mtable_layout v rows a ss : Forall2 (fun t s => render true t = Ok s) rows ss -> attr a "innerTable" = [] ->
  latex_of (T (lit "mtable") v rows a) = Ok (with_gaps (fun _ => lit " \\" ++ nl) ss).
Proof.
  intros C E. rewrite latex_node. unfold node. change (tag_of (lit "mtable")) with TagTable. cbn iota.
  change (is_table (lit "mtable")) with true. rewrite map_map. cbn [snd].
  replace (rseq (map (fun x : tree => render true x) rows)) with (Ok ss).
  2:{ symmetry. apply rseq_Forall2. apply Forall2_map_l. exact C. }
  cbn [rbind orb]. rewrite E. cbn [truthy]. rewrite join_gaps. auto.
Qed.
(** The reference rendering inside a table, in terms of the API: the inner object of a built table. *)
Lemma row_outcome t : render true t = latex_of (T (lit "mtable") [] [t] []).
Proof.
  rewrite latex_node. unfold node. change (tag_of (lit "mtable")) with TagTable. cbn iota. cbn [map snd rseq].
  change (is_table (lit "mtable")) with true. destruct (render true t); reflexivity.
Qed.

Lemma converts2 x y sx sy : latex_of x = Ok sx -> latex_of y = Ok sy -> converts [x; y] [sx; sy].
Proof. repeat constructor; auto. Qed.

Ltac node_of t := rewrite latex_node' by reflexivity; unfold node;
  match goal with |- context [tag_of (lit ?x)] => change (tag_of (lit x)) with t end; cbn iota; cbn [map snd rbind].
Lemma msup_layout v b x a sb sx : latex_of b = Ok sb -> latex_of x = Ok sx ->
  latex_of (T (lit "msup") v [b; x] a) = Ok (base_latex b sb ++ lit "^" ++ braced sx).
Proof. intros B X. node_of TagSup. rewrite B, X. reflexivity. Qed.
Lemma msub_layout v b x a sb sx : latex_of b = Ok sb -> latex_of x = Ok sx ->
  latex_of (T (lit "msub") v [b; x] a) = Ok (base_latex b sb ++ lit "_" ++ braced sx).
Proof. intros B X. node_of TagSub. rewrite B, X. reflexivity. Qed.
Lemma msubsup_layout v b x y a sb sx sy : latex_of b = Ok sb -> latex_of x = Ok sx -> latex_of y = Ok sy ->
  latex_of (T (lit "msubsup") v [b; x; y] a) = Ok (base_latex b sb ++ lit "_" ++ braced sx ++ lit "^" ++ braced sy).
Proof. intros B X Y. node_of TagSubsup. rewrite B, X, Y. reflexivity. Qed.
Lemma munderover_layout v b x y a sb sx sy : latex_of b = Ok sb -> latex_of x = Ok sx -> latex_of y = Ok sy ->
  latex_of (T (lit "munderover") v [b; x; y] a) = Ok (sb ++ lit "_" ++ braced sx ++ lit "^" ++ braced sy).
Proof. intros B X Y. node_of TagUnderover. rewrite B, X, Y. reflexivity. Qed.
Lemma mfrac_layout v x y a sx sy : latex_of x = Ok sx -> latex_of y = Ok sy ->
  latex_of (T (lit "mfrac") v [x; y] a) =
  Ok (if truthy (attr a "bevelled") then paren_if_long sx ++ lit "/" ++ paren_if_long sy
      else lit "\frac" ++ braced sx ++ braced sy).
Proof. intros X Y. node_of TagFrac. rewrite X, Y. reflexivity. Qed.
Lemma mroot_layout v x y a sx sy : latex_of x = Ok sx -> latex_of y = Ok sy ->
  latex_of (T (lit "mroot") v [x; y] a) = Ok (lit "\sqrt[" ++ sy ++ lit "]" ++ braced sx).
Proof. intros X Y. node_of TagRoot. rewrite X, Y. reflexivity. Qed.
Lemma menclose_layout v ch a ss : converts ch ss ->
  latex_of (T (lit "menclose") v ch a) =
  Ok (enclosed (dget_or a (lit "notation") (lit "longdiv")) (with_gaps (fun _ => lit " ") ss)).
Proof.
  intro C. rewrite latex_node' by reflexivity. unfold node. change (tag_of (lit "menclose")) with TagEnclose. cbn iota.
  rewrite (rseq_kids ch ss C). cbn [rbind]. rewrite join_gaps. auto.
Qed.
Lemma maction_toggle v ch a ss : converts ch ss -> attr a "actiontype" = [] \/ attr a "actiontype" = lit "toggle" ->
  latex_of (T (lit "maction") v ch a) = Ok (with_gaps (fun _ => lit " \Longrightarrow ") ss).
Proof.
  intros C E. rewrite latex_node' by reflexivity. unfold node. change (tag_of (lit "maction")) with TagAction. cbn iota.
  replace (truthy (attr a "actiontype") && negb (str_eqb (attr a "actiontype") (lit "toggle"))) with false.
  - rewrite (rseq_kids ch ss C). cbn [rbind]. rewrite join_gaps. auto.
  - destruct E as [->| ->]; reflexivity.
Qed.
Lemma maction_first v t ch a : attr a "actiontype" <> [] -> attr a "actiontype" <> lit "toggle" ->
  latex_of (T (lit "maction") v (t :: ch) a) = latex_of t.
Proof.
  intros N1 N2. rewrite latex_node' by reflexivity. unfold node. change (tag_of (lit "maction")) with TagAction. cbn iota.
  rewrite (proj2 (str_eqb_neq _ _) N2). destruct (attr a "actiontype"); [congruence|]. reflexivity.
Qed.
Lemma munder_layout v x y a sx sy : latex_of x = Ok sx -> latex_of y = Ok sy ->
  latex_of (T (lit "munder") v [x; y] a) =
  Ok (if str_in sy (map lit ["\hat"; "\bar"; "\underbrace"; "\overbrace"])
      then sy ++ braced sx else lit "\underset" ++ braced sy ++ braced sx).
Proof. intros X Y. node_of TagUnder. rewrite X, Y. reflexivity. Qed.
Lemma mover_layout v x y a sx sy : latex_of x = Ok sx -> latex_of y = Ok sy ->
  latex_of (T (lit "mover") v [x; y] a) =
  Ok (if str_in sy (map lit ["\hat"; "\bar"; "\underbrace"; "\overbrace"])
      then sy ++ braced sx else lit "\overset" ++ braced sy ++ braced sx).
Proof. intros X Y. node_of TagOver. rewrite X, Y. reflexivity. Qed.

(** C21: an mtable anywhere below *)
Lemma has_table_occurs t : has_table t = true <-> exists u, occurs_in u t /\ t_name u = lit "mtable".
Proof.
  revert t. fix IH 1. intros [n v ch a]. cbn [has_table]. rewrite orb_true_iff, str_eqb_eq.
  assert (L : existsb has_table ch = true <-> exists c, In c ch /\ exists u, occurs_in u c /\ t_name u = lit "mtable").
  { revert ch. fix IHl 1. intros [|c ch]; cbn [existsb].
    - split; [discriminate|intros (x & [] & _)].
    - rewrite orb_true_iff, IH, IHl. split.
      + intros [H|(x & I & H)]; [exists c; cbn; auto|exists x; cbn; auto].
      + intros (x & [<-|I] & H); [left; auto|right; eauto]. }
  rewrite L. split.
  - intros [->|(c & I & u & O & E)]; [eexists; split; [constructor|reflexivity]|].
    exists u. split; auto. econstructor; eauto.
  - intros (u & O & E). inversion O; subst; [left; auto|right; eauto].
Qed.
Lemma tables_occur ch : existsb has_table ch = true <-> exists c u, In c ch /\ occurs_in u c /\ t_name u = lit "mtable".
Proof.
  rewrite existsb_exists. split.
  - intros (c & I & H). apply has_table_occurs in H as (u & O & E). eauto.
  - intros (c & u & I & O & E). exists c. split; auto. apply has_table_occurs. eauto.
Qed.
Lemma fenced_env op cl e v ch a ss : converts ch ss ->
  (exists c u, In c ch /\ occurs_in u c /\ t_name u = lit "mtable") ->
  In (op, cl, e) env_pairs -> attr a "open" = lit op -> attr a "close" = lit cl ->
  latex_of (T (lit "mfenced") v ch a)
  = Ok (lit "\begin{" ++ lit e ++ lit "}" ++ nl ++ concat ss ++ nl ++ lit "\end{" ++ lit e ++ lit "}").
Proof.
  intros C O I E1 E2. apply tables_occur in O. rewrite (fenced_table v ch a ss C O), E1, E2.
  unfold fenced_matrix, env. rewrite <- !app_assoc.
  repeat (destruct I as [I|I]; [inversion I; subst; reflexivity|]). destruct I.
Qed.
Lemma fenced_same v ch a ss : converts ch ss ->
  (exists c u, In c ch /\ occurs_in u c /\ t_name u = lit "mtable") ->
  attr a "open" = attr a "close" -> attr a "open" <> lit "|" -> attr a "open" <> lit "||" ->
  latex_of (T (lit "mfenced") v ch a) = Ok (lit "\begin{bmatrix}" ++ nl ++ concat ss ++ nl ++ lit "\end{bmatrix}").
Proof.
  intros C O E N1 N2. apply tables_occur in O. rewrite (fenced_table v ch a ss C O). rewrite <- E. clear E.
  revert N1 N2. generalize (attr a "open"). intros o N1 N2.
  unfold fenced_matrix. assert (F : fence_env o o = "bmatrix").
  { unfold fence_env. rewrite (proj2 (str_eqb_neq _ _) N1), (proj2 (str_eqb_neq _ _) N2), str_eqb_refl.
    destruct (str_eqb o (lit "(")) eqn:X; [apply str_eqb_eq in X as ->; reflexivity|].
    destruct (str_eqb o (lit "[")) eqn:X2; [apply str_eqb_eq in X2 as ->; reflexivity|].
    destruct (str_eqb o (lit "{")) eqn:X3; [apply str_eqb_eq in X3 as ->; reflexivity|]. reflexivity. }
  rewrite F. cbn [String.eqb Ascii.eqb Bool.eqb]. unfold env. rewrite <- !app_assoc. reflexivity.
Qed.
Lemma fenced_other v ch a ss : converts ch ss ->
  (exists c u, In c ch /\ occurs_in u c /\ t_name u = lit "mtable") ->
  attr a "open" <> attr a "close" ->
  (forall op cl e, In (op, cl, e) env_pairs -> attr a "open" <> lit op \/ attr a "close" <> lit cl) ->
  latex_of (T (lit "mfenced") v ch a)
  = Ok (lit "\left" ++ attr a "open" ++ lit "\begin{matrix}" ++ nl ++ concat ss ++ nl ++ lit "\end{matrix}"
        ++ lit "\right" ++ attr a "close").
Proof.
  intros C O E N. apply tables_occur in O. rewrite (fenced_table v ch a ss C O).
  revert E N. generalize (attr a "open") (attr a "close"). intros o c E N.
  assert (X : forall op cl e, In (op, cl, e) env_pairs -> str_eqb o (lit op) && str_eqb c (lit cl) = false).
  { intros op cl e I. apply andb_false_iff. rewrite !str_eqb_neq. eauto. }
  assert (F : fence_env o c = "matrix").
  { unfold fence_env. rewrite (X "(" ")" "pmatrix"), (X "[" "]" "bmatrix"), (X "{" "}" "Bmatrix"), (X "|" "|" "vmatrix"),
      (X "||" "||" "Vmatrix") by (cbn; auto 8). rewrite (proj2 (str_eqb_neq _ _) E). auto. }
  unfold fenced_matrix. rewrite F. cbn [String.eqb Ascii.eqb Bool.eqb]. unfold env. rewrite <- !app_assoc. reflexivity.
Qed.

(** C36 *)
Lemma enclosed_known name before after s : In (name, (before, after)) notations ->
  enclosed (lit name) s = lit before ++ s ++ lit after.
Proof. intro I. repeat (destruct I as [I|I]; [inversion I; subst; reflexivity|]). destruct I. Qed.
Lemma enclosed_unknown v s : ~ In v (map (fun e => lit (fst e)) notations) ->
  enclosed v s = lit "\overline{\left.\right)" ++ s ++ lit "}".
Proof.
  intro N. unfold enclosed. revert N. generalize notations as l.
  induction l as [|[k p] l IH]; cbn [map In notation_lookup fst]; auto. intro N.
  destruct (str_eqb v (lit k)) eqn:E; [apply str_eqb_eq in E; subst; tauto|]. apply IH. tauto.
Qed.

(** C39 *)
Lemma kids_nth_name ch i (f : tree -> res str) :
  match nth_error (map (fun c => (c, f c)) ch) i with
  | Some (t, _) => str_eqb (t_name t) (lit "mprescripts") | None => false end = is_mprescripts ch i.
Proof. unfold is_mprescripts. rewrite nth_error_map. destruct (nth_error ch i); auto. Qed.
Lemma kids_nth_out ch i s : child_latex ch i s -> nth i (map snd (map (fun c => (c, latex_of c)) ch)) (Ok []) = Ok s.
Proof.
  intros (t & N & E). apply nth_error_nth. rewrite map_map. cbn [snd]. rewrite nth_error_map, N. cbn. rewrite E. auto.
Qed.
Lemma multiscripts_unfold v ch a :
  latex_of (T (lit "mmultiscripts") v ch a) =
  let out i := nth i (map snd (map (fun c => (c, latex_of c)) ch)) (Ok []) in
  let scripts i j := sx <~ out i ;; sy <~ out j ;; Ok (lit "_" ++ braced sx ++ lit "^" ++ braced sy) in
  if Nat.ltb (length ch) 3 then Raise (EInvalidChildren (lit "mmultiscripts") 3 (length ch) (lit "at least"))
  else
    sb <~ out 0 ;;
    pre <~ match prescripts ch with Some (i, j) => s <~ scripts i j ;; Ok (lit "\" ++ s) | None => Ok [] end ;;
    post <~ match postscripts ch with Some (i, j) => scripts i j | None => Ok [] end ;;
    Ok (pre ++ paren_if_space sb ++ post).
Proof.
  rewrite latex_node' by reflexivity. unfold node. change (tag_of (lit "mmultiscripts")) with TagMultiscripts. cbv zeta. cbn iota.
  rewrite map_length, !kids_nth_name. unfold prescripts, postscripts.
  destruct (Nat.ltb (length ch) 3); auto.
  destruct (is_mprescripts ch 1), (is_mprescripts ch 3), (Nat.leb 4 (length ch)), (Nat.leb 6 (length ch)); reflexivity.
Qed.
Lemma multiscripts_layout v ch a sb pre post : 3 <= length ch ->
  child_latex ch 0 sb -> script_pair ch (prescripts ch) "\" pre -> script_pair ch (postscripts ch) "" post ->
  latex_of (T (lit "mmultiscripts") v ch a) = Ok (pre ++ paren_if_space sb ++ post).
Proof.
  intros L B P Q. rewrite multiscripts_unfold. cbv zeta. replace (Nat.ltb (length ch) 3) with false by (symmetry; apply Nat.ltb_ge; auto).
  rewrite (kids_nth_out _ _ _ B). cbn [rbind].
  destruct (prescripts ch) as [[i j]|]; cbn [script_pair] in P;
  [destruct P as (s1 & s2 & H1 & H2 & ->); rewrite (kids_nth_out _ _ _ H1), (kids_nth_out _ _ _ H2) | subst pre]; cbn [rbind];
  (destruct (postscripts ch) as [[i2 j2]|]; cbn [script_pair] in Q;
  [destruct Q as (s3 & s4 & H3 & H4 & ->); rewrite (kids_nth_out _ _ _ H3), (kids_nth_out _ _ _ H4) | subst post]); cbn [rbind];
  unfold braced; rewrite <- ?app_assoc; reflexivity.
Qed.
Lemma multiscripts_ignored v v' ch ch' a a' : length ch = length ch' ->
  (forall i, is_mprescripts ch i = is_mprescripts ch' i) ->
  (forall i, i = 0 \/ (exists j, prescripts ch = Some (i, j) \/ prescripts ch = Some (j, i)
                        \/ postscripts ch = Some (i, j) \/ postscripts ch = Some (j, i)) ->
             nth_error ch i = nth_error ch' i) ->
  latex_of (T (lit "mmultiscripts") v ch a) = latex_of (T (lit "mmultiscripts") v' ch' a').
Proof.
  intros L M E. rewrite !multiscripts_unfold. cbv zeta.
  assert (Pr : prescripts ch' = prescripts ch) by (unfold prescripts; rewrite <- L, <- !M; auto).
  assert (Po : postscripts ch' = postscripts ch) by (unfold postscripts; rewrite <- !M; auto).
  assert (X : forall i, nth_error ch i = nth_error ch' i ->
      nth i (map snd (map (fun c => (c, latex_of c)) ch)) (Ok []) = nth i (map snd (map (fun c => (c, latex_of c)) ch')) (Ok [])).
  { intros i H. rewrite !map_map. cbn [snd]. destruct (nth_error ch i) as [t|] eqn:Y.
    - transitivity (latex_of t); [|symmetry]; apply nth_error_nth; rewrite nth_error_map; [rewrite Y|rewrite <- H]; auto.
    - rewrite !nth_overflow; auto; rewrite map_length; apply nth_error_None; auto. }
  rewrite Pr, Po, <- L, <- (X 0) by auto. destruct (Nat.ltb (length ch) 3); auto.
  destruct (prescripts ch) as [[i j]|]; [rewrite <- (X i), <- (X j) by eauto 8|];
  (destruct (postscripts ch) as [[i2 j2]|]; [rewrite <- (X i2), <- (X j2) by eauto 8|]); auto.
Qed.
Lemma child_latex_known ch i t s : nth_error ch i = Some t -> latex_of t = Ok s -> child_latex ch i s.
Proof. intros. exists t. auto. Qed.

(** C24, C39: when parentheses are added *)
Lemma base_latex_cases b s :
  (2 <= length (t_children b) /\ 2 <= length s /\ base_latex b s = lit "\left(" ++ s ++ lit "\right)")
  \/ ((length (t_children b) < 2 \/ length s < 2) /\ base_latex b s = s).
Proof.
  unfold base_latex. destruct (Nat.ltb_spec 1 (length (t_children b))), (Nat.ltb_spec 1 (length s)); cbn [andb]; auto.
  all: right; split; auto; lia.
Qed.

Lemma variant_unknown l d v : ~ In v (map (fun e => lit (fst e)) l) -> variant_lookup l d v = d.
Proof.
  induction l as [|[k c] l IH]; cbn [map In variant_lookup fst]; auto. intro N.
  destruct (str_eqb v (lit k)) eqn:E; [apply str_eqb_eq in E; subst; tauto|]. apply IH. tauto.
Qed.
Lemma mi_unknown v ch a : ~ In (attr a "mathvariant") (map (fun e => lit (fst e)) mi_variants) ->
  latex_of (T (lit "mi") v ch a) = latex_of (T (lit "mi") v ch []).
Proof. intro H. rewrite !mi_latex_of. unfold mi_latex. rewrite (variant_unknown _ _ _ H). reflexivity. Qed.
Lemma vowels_changed k a : dget vowels_with_accents k = Some a -> accent_or_font k <> k.
Proof.
  intro G. apply (dget_keys vowels_with_accents (fun k v => negb (str_eqb (accent_or_font k) k))) in G; [|vm_compute; reflexivity].
  apply str_eqb_neq. destruct (str_eqb _ _); auto; discriminate.
Qed.
Lemma fonts_changed k a : dget special_font_chars k = Some a -> accent_or_font k <> k.
Proof.
  intro G. apply (dget_keys special_font_chars (fun k v => negb (str_eqb (accent_or_font k) k))) in G; [|vm_compute; reflexivity].
  apply str_eqb_neq. destruct (str_eqb _ _); auto; discriminate.
Qed.
Lemma utf8_changes w : dget vowels_with_accents w <> None \/ dget special_font_chars w <> None -> utf8_convert w <> w.
Proof.
  rewrite utf8_convert_spec. intros [H|H].
  - destruct (dget vowels_with_accents w) eqn:E; [eapply vowels_changed; eauto|congruence].
  - destruct (dget special_font_chars w) eqn:E; [eapply fonts_changed; eauto|congruence].
Qed.
Lemma mn_other v ch a : dget math_number_by_glyph (squeeze v) = None -> latex_of (T (lit "mn") v ch a) = Ok (squeeze v).
Proof. intro H. rewrite mn_latex_of. f_equal. apply mn_plain. congruence. Qed.
Lemma mn_listed v s ch a : dget math_number_by_glyph (squeeze v) = Some s -> latex_of (T (lit "mn") v ch a) = Ok s.
Proof.
  intro H. rewrite mn_latex_of. unfold mn_latex, first_entry. rewrite H. destruct s; auto.
  apply (dget_keys math_number_by_glyph (fun k v => truthy v)) in H; [discriminate|vm_compute; reflexivity].
Qed.

Lemma fenced_no_table v ch a ss : converts ch ss ->
  ~ (exists c u, In c ch /\ occurs_in u c /\ t_name u = lit "mtable") ->
  latex_of (T (lit "mfenced") v ch a) =
  Ok (lit "\left" ++ (if truthy (attr a "open") then attr a "open" else lit "(")
      ++ with_gaps (separator (attr a "separators")) ss
      ++ lit "\right" ++ (if truthy (attr a "close") then attr a "close" else lit ")")).
Proof.
  intros C N. apply fenced_plain; auto. destruct (existsb has_table ch) eqn:E; auto. apply tables_occur in E. tauto.
Qed.
Lemma separator_cases seps :
  (seps = [] -> forall i, separator seps i = lit ",")
  /\ (forall i c, nth_error seps i = Some c -> separator seps i = [c])
  /\ (forall init c i, seps = init ++ [c] -> length init <= i -> separator seps i = [c]).
Proof.
  split; [intros ->; auto|]. assert (X : forall i, seps <> [] -> separator seps i = [nth (Nat.min i (length seps - 1)) seps 0%N]).
  { intros i H. destruct seps; [congruence|auto]. }
  split.
  - intros i c E. assert (L : i < length seps) by (apply nth_error_Some; congruence). rewrite X by (destruct seps; [cbn in L; lia|discriminate]).
    rewrite Nat.min_l by lia. f_equal. apply nth_error_nth. auto.
  - intros init c i E L. rewrite X by (subst; destruct init; discriminate). rewrite E, app_length. cbn [length].
    rewrite Nat.min_r by lia. replace (length init + 1 - 1) with (length init) by lia.
    f_equal. rewrite app_nth2 by lia. rewrite Nat.sub_diag. auto.
Qed.
Lemma mtable_rows v rows a ss :
  Forall2 (fun row s => latex_of (T (lit "mtable") [] [row] []) = Ok s) rows ss -> attr a "innerTable" = [] ->
  latex_of (T (lit "mtable") v rows a) = Ok (with_gaps (fun _ => lit " \\" ++ nl) ss).
Proof.
  intros F E. apply mtable_layout; auto. clear E. induction F; constructor; auto. rewrite row_outcome. auto.
Qed.
Lemma row_plain t : has_table t = false -> latex_of (T (lit "mtable") [] [t] []) = latex_of t.
Proof.
  rewrite <- row_outcome, latex_of_render. revert t. fix IH 1. intros [n v ch a] H. cbn [has_table] in H. apply orb_false_iff in H as [H1 H2].
  cbn [render]. unfold is_table. rewrite H1. cbn [orb].
  assert (L : map (fun c => (c, render true c)) ch = map (fun c => (c, render false c)) ch).
  { clear H1. revert ch H2. fix IHl 1. intros [|c ch] H2; [reflexivity|]. cbn [existsb] in H2. apply orb_false_iff in H2 as [H2 H3]. cbn [map].
    rewrite (IH c H2), (IHl ch H3). reflexivity. }
  rewrite L. generalize (map (fun c => (c, render false c)) ch). intro kids. unfold node.
  destruct (tag_of n) eqn:Tg; try reflexivity.
  exfalso. unfold tag_of, known_tags in Tg. cbn [tag_lookup] in Tg. rewrite H1 in Tg.
  repeat match type of Tg with (if ?b then _ else _) = _ => destruct b; [discriminate|] end. discriminate.
Qed.
Lemma gaps_count sep mark ss : (forall s, In s ss -> ~ In mark s) ->
  count_occ N.eq_dec (with_gaps (fun _ => sep) ss) mark = (length ss - 1) * count_occ N.eq_dec sep mark.
Proof.
  induction ss as [|s ss IH]; intro H; [reflexivity|]. destruct ss as [|s2 ss].
  - rewrite with_gaps_one. cbn. apply count_occ_not_In. apply H. cbn; auto.
  - rewrite with_gaps_cons. cbv beta. rewrite !count_occ_app.
    assert (E := IH (fun x I => H x (or_intror I))).
    rewrite (proj1 (count_occ_not_In N.eq_dec s mark)) by (apply H; cbn; auto).
    cbn [length] in *. unfold str in *. rewrite E. lia.
Qed.
Lemma msubsup_layout' v b x y a sb sx sy : latex_of b = Ok sb -> latex_of x = Ok sx -> latex_of y = Ok sy ->
  latex_of (T (lit "msubsup") v [b; x; y] a) = Ok (base_latex b sb ++ lit "_{" ++ sx ++ lit "}^{" ++ sy ++ lit "}").
Proof. intros B X Y. rewrite (msubsup_layout v b x y a sb sx sy B X Y). unfold braced. rewrite <- !app_assoc. reflexivity. Qed.
Lemma munderover_layout' v b x y a sb sx sy : latex_of b = Ok sb -> latex_of x = Ok sx -> latex_of y = Ok sy ->
  latex_of (T (lit "munderover") v [b; x; y] a) = Ok (sb ++ lit "_{" ++ sx ++ lit "}^{" ++ sy ++ lit "}").
Proof. intros B X Y. rewrite (munderover_layout v b x y a sb sx sy B X Y). unfold braced. rewrite <- !app_assoc. reflexivity. Qed.
Lemma menclose_known name before after v ch a ss : converts ch ss ->
  In (name, (before, after)) notations -> dget a (lit "notation") = Some (lit name) ->
  latex_of (T (lit "menclose") v ch a) = Ok (lit before ++ with_gaps (fun _ => lit " ") ss ++ lit after).
Proof.
  intros C I E. rewrite (menclose_layout v ch a ss C). unfold dget_or. rewrite E. f_equal. apply enclosed_known; auto.
Qed.
Lemma menclose_other v ch a ss : converts ch ss ->
  (forall n, dget a (lit "notation") = Some n -> ~ In n (map (fun e => lit (fst e)) notations)) ->
  latex_of (T (lit "menclose") v ch a)
  = Ok (lit "\overline{\left.\right)" ++ with_gaps (fun _ => lit " ") ss ++ lit "}").
Proof.
  intros C N. rewrite (menclose_layout v ch a ss C). f_equal. apply enclosed_unknown. unfold dget_or.
  destruct (dget a (lit "notation")) as [n|]; auto. intro I. repeat (destruct I as [I|I]; [discriminate|]). destruct I.
Qed.
Lemma accent_layout tag v x y a sx sy : In tag ["munder"; "mover"] -> latex_of x = Ok sx -> latex_of y = Ok sy ->
  In sy (map lit ["\hat"; "\bar"; "\underbrace"; "\overbrace"]) ->
  latex_of (T (lit tag) v [x; y] a) = Ok (sy ++ lit "{" ++ sx ++ lit "}").
Proof.
  intros I X Y A. assert (E : str_in sy (map lit ["\hat"; "\bar"; "\underbrace"; "\overbrace"]) = true).
  { unfold str_in. apply existsb_exists. exists sy. split; auto. apply str_eqb_refl. }
  destruct I as [<-|[<-|[]]].
  - rewrite (munder_layout v x y a sx sy X Y), E. reflexivity.
  - rewrite (mover_layout v x y a sx sy X Y), E. reflexivity.
Qed.
Lemma set_layout tag cmd v x y a sx sy : In (tag, cmd) [("munder", "\underset"); ("mover", "\overset")] ->
  latex_of x = Ok sx -> latex_of y = Ok sy ->
  ~ In sy (map lit ["\hat"; "\bar"; "\underbrace"; "\overbrace"]) ->
  latex_of (T (lit tag) v [x; y] a) = Ok (lit cmd ++ lit "{" ++ sy ++ lit "}{" ++ sx ++ lit "}").
Proof.
  intros I X Y A. assert (E : str_in sy (map lit ["\hat"; "\bar"; "\underbrace"; "\overbrace"]) = false).
  { destruct (str_in _ _) eqn:E; auto. unfold str_in in E. apply existsb_exists in E as (z & J & F). apply str_eqb_eq in F. subst z. tauto. }
  destruct I as [I|[I|[]]]; inversion I; subst.
  - rewrite (munder_layout v x y a sx sy X Y), E. unfold braced. rewrite <- !app_assoc. reflexivity.
  - rewrite (mover_layout v x y a sx sy X Y), E. unfold braced. rewrite <- !app_assoc. reflexivity.
Qed.
Lemma script_positions ch :
  (prescripts ch = Some (2, 3) <-> is_mprescripts ch 1 = true /\ 4 <= length ch)
  /\ (prescripts ch = Some (4, 5) <-> ~ (is_mprescripts ch 1 = true /\ 4 <= length ch) /\ is_mprescripts ch 3 = true /\ 6 <= length ch)
  /\ (forall p, prescripts ch = Some p -> p = (2, 3) \/ p = (4, 5))
  /\ (postscripts ch = if is_mprescripts ch 1 then None else Some (1, 2)).
Proof.
  unfold prescripts, postscripts.
  destruct (is_mprescripts ch 1), (is_mprescripts ch 3), (Nat.leb_spec 4 (length ch)), (Nat.leb_spec 6 (length ch)); cbn [andb];
  repeat split; intros; try congruence; try lia; auto; try tauto; intuition (try congruence; try lia).
Qed.
