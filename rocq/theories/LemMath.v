(** TeX reads the formula (C60). *)
From Coq Require Import String Lia.
From Verif Require Export LemMarks SpecMath.
Local Open Scope string_scope.
Local Open Scope list_scope.

(** ** Running the reader *)
Lemma read_app b x y st : read_tokens b (x ++ y) st = match read_tokens b x st with Some st' => read_tokens b y st' | None => None end.
Proof. revert st. induction x as [|t x IH]; intros st; [reflexivity|]. cbn [app read_tokens]. destruct (read_token b t st); auto. Qed.
Lemma read_blank b t st st' : blank t = true -> read_token b t st = Some st' -> st' = st.
Proof.
  intros B. unfold read_token, read_anything. rewrite B. destruct t as [| |c]; try discriminate. cbn [blank] in B.
  assert (X : forall d, is_space d = false -> (c =? d)%N = false).
  { intros d D. apply N.eqb_neq. intros ->. congruence. }
  destruct (next (current st)); try (intros E; injection E; auto; fail).
  - intros E. exfalso. cbn [is_chr] in E. rewrite N.eqb_sym, X in E by reflexivity. discriminate.
  - rewrite X by reflexivity. rewrite space_no_letter by exact B. discriminate.
Qed.
Lemma read_spaced b x y : spaced x y -> forall st st', read_tokens b x st = Some st' -> read_tokens b y st = Some st'.
Proof.
  induction 1 as [|t x y S IH|c x y C S IH|c x y C S IH]; intros st st' E; auto.
  - cbn [read_tokens] in *. destruct (read_token b t st); [apply IH; exact E|discriminate].
  - cbn [read_tokens] in E. destruct (read_token b (Chr c) st) as [st1|] eqn:R; [|discriminate].
    apply read_blank in R; [|exact C]. subst. apply IH. exact E.
  - cbn [read_tokens] in E. destruct (read_token b (Chr c) st) as [st1|] eqn:R; [|discriminate].
    assert (R' := R). apply read_blank in R'; [|exact C]. subst. cbn [read_tokens].
    assert (Q : read_token b (Chr 32) st = Some st); [|rewrite Q; apply IH; exact E].
    revert R. unfold read_token, read_anything. cbn [blank]. rewrite C. change (is_space 32) with true.
    destruct (next (current st)); auto.
    + cbn [is_chr]. intros R. exfalso. destruct (123 =? c)%N eqn:Z; [|discriminate]. apply N.eqb_eq in Z. subst. discriminate.
    + intros R. exfalso. destruct (c =? 125)%N eqn:Z; [apply N.eqb_eq in Z; subst; discriminate|].
      rewrite space_no_letter in R by exact C. discriminate.
Qed.

(** ** Reading on top of other levels *)
Definition over (x v : level) : level := Level (read x ++ read v) (cells v) (rows v) (next x).
Fixpoint graft_list (ar : list (opening * level)) (v : level) (ctx : list (opening * level)) : list (opening * level) :=
  match ar with
  | [] => ctx
  | [(o, x)] => (o, over x v) :: ctx
  | p :: ar' => p :: graft_list ar' v ctx
  end.
Definition graft (st : state) (v : level) (ctx : list (opening * level)) : state :=
  match around st with
  | [] => State (over (current st) v) ctx
  | ar => State (current st) (graft_list ar v ctx)
  end.
Fixpoint bottom_level (x : level) (ar : list (opening * level)) : level :=
  match ar with [] => x | (_, y) :: ar' => bottom_level y ar' end.
Definition plain_bottom (st : state) : Prop :=
  cells (bottom_level (current st) (around st)) = [] /\ rows (bottom_level (current st) (around st)) = [].
Lemma graft_bracketed b ctx v ar : bracketed b (graft_list ar v ctx) = bracketed (bracketed b ctx) ar.
Proof.
  induction ar as [|[o x] ar IH]; [reflexivity|]. destruct ar as [|p ar].
  - cbn [graft_list bracketed]. destruct o; reflexivity.
  - cbn [graft_list] in *. cbn [bracketed]. destruct o; auto.
Qed.
Lemma give_over l x v x' : give l x = Some x' -> give l (over x v) = Some (over x' v).
Proof.
  unfold give. cbn [over next]. destruct (next x) as [| | |w h [|k]| | | | | |]; intros E; try discriminate; try (injection E as <-; reflexivity).
  - cbn [read over]. destruct (read x) as [|i r]; [discriminate|]. cbn [app]. destruct (add_scripts _ _ i); [|discriminate]. injection E as <-. reflexivity.
  - cbn [read over]. destruct (read x) as [|i r]; [discriminate|]. cbn [app]. destruct (add_scripts _ _ i); [|discriminate]. injection E as <-. reflexivity.
Qed.
Lemma give_plain l x x' : give l x = Some x' -> cells x' = cells x /\ rows x' = rows x.
Proof.
  unfold give. destruct (next x) as [| | |w h [|k]| | | | | |]; intros E; try discriminate; try (injection E as <-; auto).
  - destruct (read x) as [|i r]; [discriminate|]. destruct (add_scripts _ _ i); [|discriminate]. injection E as <-. auto.
  - destruct (read x) as [|i r]; [discriminate|]. destruct (add_scripts _ _ i); [|discriminate]. injection E as <-. auto.
Qed.
Lemma graft_step b ctx v t st st' : plain_bottom st -> read_token (bracketed b ctx) t st = Some st' ->
  read_token b t (graft st v ctx) = Some (graft st' v ctx) /\ plain_bottom st'.
Proof.
  destruct st as [x ar]. intros P. unfold plain_bottom in P. cbn [current around] in P.
  assert (G : around (graft (State x ar) v ctx) = graft_list ar v ctx) by (destruct ar as [|? [|]]; reflexivity).
  assert (N : next (current (graft (State x ar) v ctx)) = next x) by (destruct ar as [|? [|]]; reflexivity).
  unfold read_token. rewrite N. unfold read_anything. rewrite !G, !graft_bracketed. cbn [current around].
  destruct ar as [|[o u] [|q ar]]; cbn [graft_list graft current around bottom_level] in *; destruct P as [P1 P2].
  all: destruct (blank t); cbn [negb andb];
    repeat match goal with
    | |- None = Some _ -> _ => discriminate
    | |- Some _ = Some _ -> _ => let E := fresh in intros E; injection E as <-
    | |- enter _ _ = Some _ -> _ => unfold enter; cbn [current around]
    | |- context [match give ?l ?u with _ => _ end] =>
        let u' := fresh "u'" in let E := fresh in destruct (give l u) as [u'|] eqn:E; [|discriminate];
        rewrite ?(give_over _ _ v _ E); destruct (give_plain _ _ _ E)
    | |- _ -> match ?e with _ => _ end = Some _ /\ _ => destruct e eqn:?
    | |- match ?e with _ => _ end = Some _ -> _ => destruct e eqn:?
    end; cbn [negb andb] in *; try discriminate.
  all: cbn. all: unfold plain_bottom; cbn. all: try (split; [reflexivity|split; congruence]).
  all: cbn [over next] in *; congruence.
Qed.
Lemma graft_run b ctx v ts : forall st st', plain_bottom st -> read_tokens (bracketed b ctx) ts st = Some st' ->
  read_tokens b ts (graft st v ctx) = Some (graft st' v ctx).
Proof.
  induction ts as [|t ts IH]; intros st st' P E.
  - injection E as <-. reflexivity.
  - cbn [read_tokens] in *. destruct (read_token (bracketed b ctx) t st) as [st1|] eqn:R; [|discriminate].
    destruct (graft_step b ctx v t st st1 P R) as [-> P1]. apply IH; assumption.
Qed.

(** ** What a text displays *)
Definition more (l : list item) (v : level) : level := Level (rev l ++ read v) (cells v) (rows v) Anything.
Definition displays (b : bool) (s : str) (l : list item) : Prop :=
  neat s /\ forall b0 st, bracketed b0 (around st) = b -> next (current st) = Anything ->
    read_tokens b0 (tex_tokens s) st = Some (State (more l (current st)) (around st)).
Lemma level_eta v : next v = Anything -> Level (read v) (cells v) (rows v) Anything = v.
Proof. destruct v. cbn. intros ->. reflexivity. Qed.
Lemma more_more l l' v : more l' (more l v) = more (l ++ l') v.
Proof. unfold more. cbn. rewrite rev_app_distr, app_assoc. reflexivity. Qed.
Lemma neat_nil : neat [].
Proof. split; [discriminate|intros c []]. Qed.
Lemma displays_nil b : displays b [] [].
Proof. split; [apply neat_nil|]. intros b0 [v ar] _ N. cbn in *. unfold more. cbn. rewrite level_eta by exact N. reflexivity. Qed.
Lemma displays_reads b s l : neat s -> tex_reads b s = Some l -> displays b s l.
Proof.
  intros N E. split; [exact N|]. intros b0 [v ar] B NX. cbn [current around] in *. unfold tex_reads in E.
  destruct (read_tokens b (tex_tokens s) (State fresh [])) as [[[r c w n] ar']|] eqn:R; [|discriminate].
  destruct c, w, n, ar'; try discriminate. injection E as <-. subst b.
  apply (graft_run b0 ar v) in R; [|split; reflexivity]. unfold graft in R. cbn [around current] in R.
  unfold over in R. cbn in R. rewrite NX in R || idtac. unfold more. rewrite rev_involutive.
  rewrite <- R. f_equal. f_equal. destruct v. cbn in *. subst. reflexivity.
Qed.
Lemma displays_tex b s l : displays b s l -> tex_reads b s = Some l.
Proof.
  intros [_ D]. unfold tex_reads. rewrite (D b (State fresh []) eq_refl eq_refl). cbn. rewrite app_nil_r, rev_involutive. reflexivity.
Qed.
Lemma displays_join2 b s1 s2 l1 l2 : displays b s1 l1 -> displays b s2 l2 -> mode None s1 = None \/ no_letter_first s2 ->
  displays b (s1 ++ s2) (l1 ++ l2).
Proof.
  intros [N1 D1] [N2 D2] G. split; [apply neat_app; assumption|]. intros b0 st B NX.
  assert (E : tex_tokens (s1 ++ s2) = tex_tokens s1 ++ tex_tokens s2).
  { destruct G as [G|G]; [apply tokens_app_none; exact G|apply tokens_app_nonletter; [apply N1|exact G]]. }
  rewrite E, read_app, (D1 b0 st B NX), (D2 b0 (State (more l1 (current st)) (around st)) B eq_refl). cbn [current around].
  rewrite more_more. reflexivity.
Qed.
Lemma displays_space b s : Forall (fun c => is_space c = true) s -> displays b s [].
Proof.
  intros F. assert (T : tex_tokens s = map Chr s /\ mode None s = None).
  { apply tokens_plain. intros c I ->. rewrite Forall_forall in F. specialize (F _ I). discriminate. }
  destruct T as [T M]. split.
  - split; [rewrite M; discriminate|]. rewrite T. intros c I. apply in_map_iff in I. destruct I as (x & E & _). discriminate.
  - intros b0 [v ar] _ NX. cbn [current around] in *. rewrite T. unfold more. cbn [rev app]. rewrite level_eta by exact NX.
    clear T M. induction F as [|c s C F IH]; [reflexivity|]. cbn [map read_tokens]. unfold read_token. cbn [current]. rewrite NX.
    unfold read_anything. cbn [blank]. rewrite C. exact IH.
Qed.
Lemma displays_squeeze b s l : displays b s l -> displays b (squeeze s) l.
Proof.
  intros [N D]. split.
  - destruct (marked_squeeze (Chr 38) s (count (Chr 38) s)) as [Q _]; [cbn; auto|split; [exact N|reflexivity]|exact Q].
  - intros b0 st B NX. eapply read_spaced; [apply (tokens_squeeze (length s)); [apply le_n|apply N]|]. apply D; assumption.
Qed.

(** ** Groups, commands, scripts *)
Lemma neat_braced s : neat s -> neat (braced s).
Proof. intros N. unfold braced. apply neat_app; [apply neat_check; reflexivity|]. apply neat_app; [exact N|apply neat_check; reflexivity]. Qed.
Lemma mode_braced s : neat s -> mode None (braced s) = None.
Proof.
  intros [N _]. unfold braced. rewrite !mode_app. change (mode None (lit "{")) with (@None str).
  destruct (mode None s) as [[|]|]; [destruct N; reflexivity|reflexivity|reflexivity].
Qed.
Lemma in_braces b0 s l st v' : displays false s l -> read_token b0 (Chr 123) st = enter ByBrace st -> give l (current st) = Some v' ->
  read_tokens b0 (tex_tokens (braced s)) st = Some (State v' (around st)).
Proof.
  intros [N D] O G. rewrite tokens_braced by apply N. cbn [read_tokens]. change open_brace with 123%N. rewrite O. unfold enter.
  rewrite read_app, (D b0 (State fresh ((ByBrace, current st) :: around st)) eq_refl eq_refl). cbn [current around].
  cbn [read_tokens]. unfold read_token, read_anything. cbn [current around next more blank close_brace]. change (is_space 125) with false.
  cbn [N.eqb Pos.eqb read more fresh rev]. rewrite app_nil_r, rev_involutive, G. reflexivity.
Qed.
Lemma word_tokens w : letters w -> w <> [] -> tex_tokens (backslash :: w) = [Word w] /\ mode None (backslash :: w) = Some w.
Proof.
  intros L W. split.
  - unfold tex_tokens. cbn [tokens_from]. change (backslash =? backslash)%N with true. cbv iota.
    rewrite <- (app_nil_r w) at 1. rewrite tokens_pending_letters by exact L. reflexivity.
  - cbn [mode]. change (backslash =? backslash)%N with true. cbv iota. rewrite <- (app_nil_r w) at 1. rewrite mode_letters by exact L. reflexivity.
Qed.
Lemma word_neat w : letters w -> w <> [] -> neat (backslash :: w).
Proof.
  intros L W. destruct (word_tokens w L W) as [T M]. split.
  - rewrite M. congruence.
  - rewrite T. intros c [I|[]]. discriminate.
Qed.
(** Commands with arguments. *)
Definition command (w : str) (k : nat) : bool :=
  forallb ascii_letter w && negb (str_in w (map lit [""; "left"; "right"; "begin"; "end"; "sqrt"])) && Nat.eqb (arity arities w) (S k).
Lemma command_letters w k : command w k = true -> letters w /\ w <> [].
Proof.
  unfold command. rewrite !andb_true_iff. intros [[L N] _]. split; [apply Forall_forall; apply forallb_forall; exact L|].
  intros ->. discriminate.
Qed.
Lemma command_token w k b0 st : command w k = true -> next (current st) = Anything ->
  read_token b0 (Word w) st = Some (State (wanting (Arguments w [] k) (current st)) (around st)).
Proof.
  unfold command. rewrite !andb_true_iff, negb_true_iff. intros [[_ N] A] X. unfold read_token. rewrite X. unfold read_anything.
  cbn [blank]. cbn [map str_in existsb] in N. rewrite !orb_false_iff in N. destruct N as (N0 & N1 & N2 & N3 & N4 & N5 & _).
  change (lit "") with (@nil N) in N0. rewrite N0, N1, N2, N3, N4, N5. apply Nat.eqb_eq in A. rewrite A. reflexivity.
Qed.
Lemma arguments_read b0 w ss ls : Forall2 (displays false) ss ls -> forall have k st, length ss = S k ->
  next (current st) = Arguments w have k ->
  neat (concat (map braced ss)) /\
  read_tokens b0 (tex_tokens (concat (map braced ss))) st = Some (State (adding (Applied w (have ++ ls)) (current st)) (around st)).
Proof.
  induction 1 as [|s l ss ls D F IH]; intros have k st L X; [discriminate|]. cbn [map concat].
  assert (O : read_token b0 (Chr 123) st = enter ByBrace st) by (unfold read_token; rewrite X; reflexivity).
  assert (G : give l (current st) = match k with 0 => Some (adding (Applied w (have ++ [l])) (current st))
                                             | S k' => Some (wanting (Arguments w (have ++ [l]) k') (current st)) end).
  { unfold give. rewrite X. destruct k; reflexivity. }
  destruct k as [|k].
  - destruct ss; [|discriminate]. inversion F; subst. cbn [map concat]. rewrite app_nil_r. split; [apply neat_braced, D|].
    rewrite (in_braces b0 s l st _ D O G). reflexivity.
  - destruct (IH (have ++ [l]) k (State (wanting (Arguments w (have ++ [l]) k) (current st)) (around st))) as [N R].
    + cbn [length] in L. lia.
    + reflexivity.
    + split; [apply neat_app; [apply neat_braced, D|exact N]|].
      rewrite tokens_app_none by (apply mode_braced, D). rewrite read_app, (in_braces b0 s l st _ D O G), R.
      rewrite <- app_assoc. reflexivity.
Qed.
Lemma displays_command b w k ss ls : command w k = true -> Forall2 (displays false) ss ls -> length ss = S k ->
  displays b ((backslash :: w) ++ concat (map braced ss)) [Applied w ls].
Proof.
  intros C F L. destruct (command_letters w k C) as [LW NW]. destruct (word_tokens w LW NW) as [T M]. split.
  - apply neat_app; [apply word_neat; assumption|].
    destruct (arguments_read b w ss ls F [] k (State (wanting (Arguments w [] k) fresh) []) L eq_refl) as [N _]. exact N.
  - intros b0 st B X. rewrite tokens_app_nonletter.
    + rewrite T. cbn [app read_tokens]. rewrite (command_token w k b0 st C X).
      destruct (arguments_read b0 w ss ls F [] k (State (wanting (Arguments w [] k) (current st)) (around st)) L eq_refl) as [_ R].
      rewrite R. reflexivity.
    + rewrite M. congruence.
    + destruct ss; [discriminate|]. reflexivity.
Qed.
Lemma displays_group b s l : displays false s l -> displays b (braced s) [Group l].
Proof.
  intros D. split; [apply neat_braced, D|]. intros b0 st B X. apply (in_braces b0 s l st); [exact D| |].
  - unfold read_token. rewrite X. reflexivity.
  - unfold give. rewrite X. reflexivity.
Qed.
Lemma displays_sqrt b s l : displays false s l -> displays b (lit "\sqrt" ++ braced s) [Applied (lit "sqrt") [l]].
Proof.
  intros D. split; [apply neat_app; [apply neat_check; reflexivity|apply neat_braced, D]|]. intros b0 st B X.
  rewrite tokens_app_nonletter by (try discriminate; reflexivity). change (tex_tokens (lit "\sqrt")) with [Word (lit "sqrt")].
  cbn [app read_tokens]. replace (read_token b0 (Word (lit "sqrt")) st) with (Some (State (wanting RootIndex (current st)) (around st)))
    by (unfold read_token; rewrite X; reflexivity).
  rewrite (in_braces b0 s l _ (adding (Applied (lit "sqrt") [l]) (current st)) D); reflexivity.
Qed.
Lemma displays_root s l i m : displays false s l -> displays true i m -> displays false (lit "\sqrt[" ++ i ++ lit "]" ++ braced s) [Root m l].
Proof.
  intros D E. split.
  - apply neat_app; [apply neat_check; reflexivity|]. apply neat_app; [apply E|].
    apply neat_app; [apply neat_check; reflexivity|apply neat_braced, D].
  - intros b0 st B X. rewrite tokens_app_none by reflexivity. change (tex_tokens (lit "\sqrt[")) with [Word (lit "sqrt"); Chr 91].
    rewrite tokens_app_nonletter by (try apply E; reflexivity). rewrite (tokens_app_none (lit "]")) by reflexivity.
    change (tex_tokens (lit "]")) with [Chr 93]. cbn [app read_tokens].
    replace (read_token b0 (Word (lit "sqrt")) st) with (Some (State (wanting RootIndex (current st)) (around st)))
      by (unfold read_token; rewrite X; reflexivity).
    replace (read_token b0 (Chr 91) (State (wanting RootIndex (current st)) (around st)))
      with (Some (State fresh ((ByBracket, wanting RootIndex (current st)) :: around st)))
      by (unfold read_token; cbn [current next wanting around blank is_chr]; rewrite B; reflexivity).
    rewrite read_app. destruct E as [NE RE].
    rewrite (RE b0 (State fresh ((ByBracket, wanting RootIndex (current st)) :: around st)) eq_refl eq_refl). cbn [current around read_tokens app].
    replace (read_token b0 (Chr 93) (State (more m fresh) ((ByBracket, wanting RootIndex (current st)) :: around st)))
      with (Some (State (wanting (RootBody m) (current st)) (around st)))
      by (unfold read_token, read_anything; cbn; rewrite app_nil_r, rev_involutive; reflexivity).
    rewrite (in_braces b0 s l _ (adding (Root m l) (current st)) D); reflexivity.
Qed.
Lemma with_scripts_last sub sup l l' : with_scripts sub sup l = Some l' ->
  exists l0 i j, l = l0 ++ [i] /\ add_scripts sub sup i = Some j /\ l' = l0 ++ [j].
Proof.
  revert l'. induction l as [|i l IH]; intros l' E; [discriminate|]. cbn [with_scripts] in E. destruct l as [|k l].
  - destruct (add_scripts sub sup i) as [j|] eqn:A; [|discriminate]. injection E as <-. exists [], i, j. auto.
  - destruct (with_scripts sub sup (k :: l)) as [r|]; [|discriminate]. injection E as <-.
    destruct (IH r eq_refl) as (l0 & i' & j & E & A & ->). exists (i :: l0), i', j. rewrite E. auto.
Qed.
Lemma with_scripts_app sub sup l0 i : with_scripts sub sup (l0 ++ [i]) = match add_scripts sub sup i with Some j => Some (l0 ++ [j]) | None => None end.
Proof.
  induction l0 as [|k l IH]; [cbn; destruct (add_scripts _ _ _); reflexivity|]. cbn [app with_scripts]. rewrite IH.
  destruct (l ++ [i]) eqn:E; [destruct l; discriminate|]. destruct (add_scripts sub sup i); reflexivity.
Qed.
Lemma script_read b0 s l up x st i j r : displays false s l -> next (current st) = Anything -> read (current st) = i :: r ->
  add_scripts (if up : bool then None else Some l) (if up then Some l else None) i = Some j -> x = (if up then lit "^" else lit "_") ->
  read_tokens b0 (tex_tokens (x ++ braced s)) st = Some (State (Level (j :: r) (cells (current st)) (rows (current st)) Anything) (around st)).
Proof.
  intros D X R A ->. rewrite tokens_app_none by (destruct up; reflexivity).
  replace (tex_tokens (if up then lit "^" else lit "_")) with [Chr (if up then 94 else 95)] by (destruct up; reflexivity). cbn [app read_tokens].
  replace (read_token b0 (Chr (if up then 94 else 95)) st) with (Some (State (wanting (if up then TheSup else TheSub) (current st)) (around st)))
    by (unfold read_token; rewrite X; unfold read_anything; destruct up; reflexivity).
  rewrite (in_braces b0 s l _ (Level (j :: r) (cells (current st)) (rows (current st)) Anything) D).
  - reflexivity.
  - destruct up; reflexivity.
  - unfold give. cbn [current wanting next read]. destruct up; cbn [cells rows wanting]; rewrite R, A; reflexivity.
Qed.
Lemma displays_script b s l (up : bool) x lx l' : displays b s l -> displays false x lx ->
  with_scripts (if up then None else Some lx) (if up then Some lx else None) l = Some l' ->
  displays b (s ++ (if up then lit "^" else lit "_") ++ braced x) l'.
Proof.
  intros [N D] E W. apply with_scripts_last in W. destruct W as (l0 & i & j & -> & A & ->). split.
  - apply neat_app; [exact N|]. apply neat_app; [destruct up; apply neat_check; reflexivity|apply neat_braced, E].
  - intros b0 st B X. rewrite tokens_app_nonletter by (try apply N; destruct up; reflexivity).
    rewrite read_app, (D b0 st B X). cbn [current around].
    rewrite (script_read b0 x lx up _ (State (more (l0 ++ [i]) (current st)) (around st)) i j (rev l0 ++ read (current st)) E).
    + unfold more. cbn [current around cells rows]. rewrite rev_app_distr. reflexivity.
    + reflexivity.
    + unfold more. cbn [current around read]. rewrite rev_app_distr. reflexivity.
    + exact A.
    + reflexivity.
Qed.
Lemma with_both x y l l' : with_scripts (Some x) (Some y) l = Some l' ->
  exists k, with_scripts (Some x) None l = Some k /\ with_scripts None (Some y) k = Some l'.
Proof.
  intros W. apply with_scripts_last in W. destruct W as (l0 & i & j & -> & A & ->).
  assert (B : exists k, add_scripts (Some x) None i = Some k /\ add_scripts None (Some y) k = Some j).
  { destruct i as [t|m|o c m|w m|m m'|e m|i' [p|] [q|]]; cbn in A |- *; try discriminate; injection A as <-; eexists; split; reflexivity. }
  destruct B as (k & B1 & B2). exists (l0 ++ [k]). rewrite !with_scripts_app, B1, B2. auto.
Qed.
Lemma displays_scripts b s l x y lx ly l' : displays b s l -> displays false x lx -> displays false y ly ->
  with_scripts (Some lx) (Some ly) l = Some l' ->
  displays b (s ++ lit "_" ++ braced x ++ lit "^" ++ braced y) l'.
Proof.
  intros D X Y W. apply with_both in W. destruct W as (k & W1 & W2).
  pose proof (displays_script b s l false x lx k D X W1) as D1. pose proof (displays_script b _ k true y ly l' D1 Y W2) as D2.
  cbv iota in D2. rewrite <- !app_assoc in D2. exact D2.
Qed.

(** ** Fences and environments *)
Lemma fence_chars c : fence (Chr c) = true -> In c (lit "()[]|/.<>").
Proof. cbn [fence]. rewrite existsb_exists. intros (x & I & E). apply N.eqb_eq in E. subst. exact I. Qed.
Lemma fence_one c : fence (Chr c) = true -> tex_tokens [c] = [Chr c] /\ mode None [c] = None /\ neat [c] /\ ascii_letter c = false /\ is_space c = false.
Proof. intros F. apply fence_chars in F. vm_compute in F. decompose [or] F; subst; try contradiction; (split; [reflexivity|]; split; [reflexivity|]; split; [apply neat_check; reflexivity|split; reflexivity]). Qed.
Lemma displays_fence b o c s l : fence (Chr o) = true -> fence (Chr c) = true -> (b = true -> o <> 93%N /\ c <> 93%N) -> displays b s l ->
  displays b (lit "\left" ++ [o] ++ s ++ lit "\right" ++ [c]) [Fenced (Chr o) (Chr c) l].
Proof.
  intros O C Z [N D]. destruct (fence_one o O) as (TO & MO & NO & LO & SO). destruct (fence_one c C) as (TC & MC & NC & LC & SC). split.
  - apply neat_app; [apply neat_check; reflexivity|]. apply neat_app; [exact NO|]. apply neat_app; [exact N|].
    apply neat_app; [apply neat_check; reflexivity|exact NC].
  - intros b0 st B X. rewrite tokens_left by exact LO. rewrite tokens_app_none by exact MO. rewrite tokens_right by (try apply N; exact LC).
    rewrite TO, TC. cbn [app read_tokens].
    replace (read_token b0 (Word (lit "left")) st) with (Some (State (wanting FenceOpen (current st)) (around st)))
      by (unfold read_token; rewrite X; reflexivity).
    assert (Q : forall d, (b = true -> d <> 93%N) -> is_chr 93 (Chr d) && b = false).
    { intros d H. cbn [is_chr]. destruct b; [|apply andb_false_r]. rewrite andb_true_r. apply N.eqb_neq. intros E. apply H; auto. }
    replace (read_token b0 (Chr o) (State (wanting FenceOpen (current st)) (around st)))
      with (Some (State fresh ((ByLeft (Chr o), current st) :: around st))).
    2:{ unfold read_token. cbn [current next wanting around]. change (blank (Chr o)) with (is_space o). rewrite SO, O, B, Q by (intros H; apply Z; exact H).
        cbn [negb andb]. unfold wanting. cbn. rewrite level_eta by exact X. reflexivity. }
    rewrite read_app, (D b0 (State fresh ((ByLeft (Chr o), current st) :: around st)) B eq_refl). cbn [current around read_tokens].
    replace (read_token b0 (Word (lit "right")) (State (more l fresh) ((ByLeft (Chr o), current st) :: around st)))
      with (Some (State (wanting FenceClose (more l fresh)) ((ByLeft (Chr o), current st) :: around st))) by reflexivity.
    unfold read_token. cbn [current next wanting around]. change (blank (Chr c)) with (is_space c). rewrite SC, C. cbn [bracketed].
    rewrite B, Q by (intros H; apply Z; exact H). cbn. rewrite app_nil_r, rev_involutive. reflexivity.
Qed.
Lemma displays_parens b s l : displays b s l -> displays b (lit "\left(" ++ s ++ lit "\right)") (parens l).
Proof. intros D. apply (displays_fence b 40 41 s l); [reflexivity|reflexivity|intros _; split; discriminate|exact D]. Qed.

(** Rows of cells, in an environment. *)
Definition displays_rows (b : bool) (s : str) (rs : list (list (list item))) : Prop :=
  neat s /\ forall b0 e u ar R, bracketed b0 ar = b ->
    exists x c R', read_tokens b0 (tex_tokens s) (State (Level [] [] R Anything) ((ByBegin e, u) :: ar))
                   = Some (State (Level x c R' Anything) ((ByBegin e, u) :: ar))
      /\ rev (rev (rev x :: c) :: R') = rev R ++ rs.
Lemma rows_displays b s l : displays b s l -> displays_rows b s [[l]].
Proof.
  intros [N D]. split; [exact N|]. intros b0 e u ar R B.
  rewrite (D b0 (State (Level [] [] R Anything) ((ByBegin e, u) :: ar)) B eq_refl). cbn.
  exists (rev l ++ []), [], R. split; [reflexivity|]. rewrite app_nil_r, rev_involutive. cbn. reflexivity.
Qed.
Lemma rows_squeeze b s rs : displays_rows b s rs -> displays_rows b (squeeze s) rs.
Proof.
  intros [N D]. split.
  - destruct (marked_squeeze (Chr 38) s (count (Chr 38) s)) as [Q _]; [cbn; auto|split; [exact N|reflexivity]|exact Q].
  - intros b0 e u ar R B. destruct (D b0 e u ar R B) as (x & c & R' & E & Z). exists x, c, R'. split; [|exact Z].
    eapply read_spaced; [apply (tokens_squeeze (length s)); [apply le_n|apply N]|]. exact E.
Qed.
Lemma env_tokens name s : letters (lit name) -> mode None s <> Some [] ->
  tex_tokens (env name s) = Word (lit "begin") :: group (lit name) ++ tex_tokens s ++ Word (lit "end") :: group (lit name).
Proof.
  intros L M. unfold env.
  assert (NB : no_backslash (lit name)).
  { intros c I. apply (proj1 (Forall_forall _ _) L) in I. apply letter_not_backslash, N.eqb_neq in I. auto. }
  destruct (tokens_plain (lit name) NB) as [TN MN].
  assert (C : forall r, tex_tokens (lit name ++ lit "}" ++ r) = map Chr (lit name) ++ Chr close_brace :: tex_tokens r).
  { intro r. rewrite tokens_app_none, TN, tokens_app_none by auto. reflexivity. }
  rewrite tokens_app_none by reflexivity. rewrite C. rewrite tokens_app_nonletter by (auto; reflexivity).
  rewrite (tokens_app_none (lit "\end{")) by reflexivity.
  replace (lit name ++ lit "}") with (lit name ++ lit "}" ++ []) by (rewrite app_nil_r; reflexivity). rewrite C.
  unfold group. change (tex_tokens (lit "\begin{")) with [Word (lit "begin"); Chr open_brace].
  change (tex_tokens (lit "\end{")) with [Word (lit "end"); Chr open_brace]. cbn [app]. rewrite <- !app_assoc. reflexivity.
Qed.
Lemma name_read b0 b name : letters name -> forall n v ar, next v = Name b n ->
  read_tokens b0 (map Chr name) (State v ar) = Some (State (wanting (Name b (n ++ name)) v) ar).
Proof.
  induction 1 as [|c name C L IH]; intros n v ar X.
  - rewrite app_nil_r. cbn. unfold wanting. rewrite <- X. destruct v; reflexivity.
  - cbn [map read_tokens]. unfold read_token. cbn [current]. rewrite X.
    assert (Z : (c =? 125)%N = false) by (apply N.eqb_neq; intros ->; discriminate). rewrite Z, C. cbn [around].
    rewrite (IH (n ++ [c])) by reflexivity. unfold wanting. cbn. rewrite <- app_assoc. reflexivity.
Qed.
Lemma begin_read b0 (b : bool) name v ar : letters name -> next v = Anything ->
  read_tokens b0 (Word (if b then lit "begin" else lit "end") :: group name) (State v ar)
  = read_token b0 (Chr 125) (State (wanting (Name b name) v) ar).
Proof.
  intros L X. cbn [read_tokens].
  replace (read_token b0 (Word (if b then lit "begin" else lit "end")) (State v ar)) with (Some (State (wanting (NameBrace b) v) ar))
    by (unfold read_token; cbn [current]; rewrite X; destruct b; reflexivity).
  unfold group. cbn [read_tokens]. change open_brace with 123%N.
  replace (read_token b0 (Chr 123) (State (wanting (NameBrace b) v) ar)) with (Some (State (wanting (Name b []) v) ar)) by reflexivity.
  rewrite read_app, (name_read b0 b name L [] (wanting (Name b []) v) ar eq_refl). cbn [app].
  change close_brace with 125%N. cbn [read_tokens]. change (wanting (Name b name) (wanting (Name b []) v)) with (wanting (Name b name) v).
  destruct (read_token b0 (Chr 125) (State (wanting (Name b name) v) ar)); reflexivity.
Qed.
Lemma displays_env b name s rs : letters (lit name) -> displays_rows b s rs -> displays b (env name s) [Matrix (lit name) rs].
Proof.
  intros L [N D]. assert (NN : neat (lit name)).
  { assert (NB : no_backslash (lit name)).
    { intros c I. apply (proj1 (Forall_forall _ _) L) in I. apply letter_not_backslash, N.eqb_neq in I. auto. }
    destruct (tokens_plain (lit name) NB) as [TN MN]. split; [rewrite MN; discriminate|]. rewrite TN. intros c I.
    apply in_map_iff in I. destruct I as (x & E & _). discriminate. }
  split.
  - unfold env. repeat (apply neat_app; [first [exact NN|exact N|apply neat_check; reflexivity]|]). apply neat_check. reflexivity.
  - intros b0 [v ar] B X. cbn [current around] in *. rewrite env_tokens by (auto; apply N).
    change (Word (lit "begin") :: group (lit name) ++ tex_tokens s ++ Word (lit "end") :: group (lit name))
      with ((Word (lit "begin") :: group (lit name)) ++ tex_tokens s ++ (Word (lit "end") :: group (lit name))).
    rewrite read_app, (begin_read b0 true (lit name) v ar L X).
    replace (read_token b0 (Chr 125) (State (wanting (Name true (lit name)) v) ar)) with (Some (State fresh ((ByBegin (lit name), v) :: ar)))
      by (unfold read_token; cbn; unfold wanting; cbn; rewrite level_eta by exact X; reflexivity).
    rewrite read_app. destruct (D b0 (lit name) v ar [] B) as (x & c & R' & E & Z). unfold fresh. rewrite E.
    rewrite (begin_read b0 false (lit name) (Level x c R' Anything) _ L eq_refl).
    unfold read_token. cbn [current wanting next around read cells rows]. change (125 =? 125)%N with true. cbv iota.
    rewrite str_eqb_refl, Z. reflexivity.
Qed.

(** ** Sequences *)
Lemma displays_const b s l : neat_b s = true -> tex_reads b s = Some l -> displays b s l.
Proof. intros N R. apply displays_reads; [apply neat_check; exact N|exact R]. Qed.
Lemma displays_between b sep m ss ls : displays b sep m -> mode None sep = None -> no_letter_first sep -> sep <> [] -> Forall2 (displays b) ss ls ->
  forall f, (f [] = [] /\ (forall l, f [l] = l) /\ forall l l' r, f (l :: l' :: r) = l ++ m ++ f (l' :: r)) -> displays b (join sep ss) (f ls).
Proof.
  intros D M L Z F f (F0 & F1 & F2). induction F as [|s l ss ls H F IH].
  - rewrite F0. apply displays_nil.
  - destruct F as [|s' l' ss ls H' F].
    + rewrite F1. exact H.
    + rewrite F2. change (join sep (s :: s' :: ss)) with (s ++ sep ++ join sep (s' :: ss)). apply displays_join2; [exact H| |].
      * apply displays_join2; [exact D|exact IH|left; exact M].
      * right. destruct sep; [contradiction|exact L].
Qed.
Lemma displays_row b ss ls : Forall2 (displays b) ss ls -> displays b (join (lit " ") ss) (concat ls).
Proof.
  intros F. apply (displays_between b (lit " ") []); try reflexivity; try discriminate; try exact F.
  - apply displays_const; [reflexivity|destruct b; reflexivity].
  - repeat split. intros l. apply app_nil_r.
Qed.
Lemma displays_arrows b ss ls : Forall2 (displays b) ss ls -> displays b (join (lit " \Longrightarrow ") ss) (with_arrows ls).
Proof.
  intros F. apply (displays_between b (lit " \Longrightarrow ") [Atom (Word (lit "Longrightarrow"))]); try reflexivity; try discriminate; try exact F.
  - apply displays_const; [reflexivity|destruct b; reflexivity].
  - repeat split.
Qed.
Lemma displays_separator b c : separator_ok c = true -> displays b [c] (separator_items c) /\ ascii_letter c = false /\ mode None [c] = None.
Proof.
  unfold separator_ok, separator_items. destruct (is_space c) eqn:S.
  - intros _. split; [apply displays_space; repeat constructor; exact S|]. split; [apply space_no_letter; exact S|].
    cbn. destruct (c =? backslash)%N eqn:Q; [|reflexivity]. apply N.eqb_eq in Q. subst. discriminate.
  - cbn [orb]. rewrite negb_true_iff, orb_false_iff. intros [L X].
    assert (Y : forall d, In d (lit "\{}$%&#'^_[]") -> (c =? d)%N = false).
    { intros d I. destruct (c =? d)%N eqn:E; [|reflexivity]. rewrite <- X. symmetry. apply existsb_exists. eauto. }
    assert (M : mode None [c] = None) by (cbn; rewrite (Y backslash) by (vm_compute; auto); reflexivity).
    split; [|auto]. assert (TT : tex_tokens [c] = [Chr c]).
    { apply tokens_plain. intros d [<-|[]] E. specialize (Y backslash). rewrite <- E, N.eqb_refl in Y. discriminate Y. vm_compute. auto. }
    apply displays_reads.
    + split; [rewrite M; discriminate|]. rewrite TT. intros d [I|[]]. discriminate.
    + unfold tex_reads. rewrite TT. cbn [read_tokens]. unfold read_token, read_anything. cbn [current fresh next blank around]. rewrite S.
      rewrite (Y 123%N), (Y 125%N), (Y 94%N), (Y 95%N), (Y 93%N), (Y 38%N) by (vm_compute; auto 20). cbn [andb].
      replace (existsb (N.eqb c) (lit "$%#'")) with false; [reflexivity|].
      symmetry. vm_compute lit. cbn [existsb]. rewrite (Y 36%N), (Y 37%N), (Y 35%N), (Y 39%N) by (vm_compute; auto 20). reflexivity.
Qed.
Lemma displays_separated b ss ls : Forall2 (displays b) ss ls -> forall seps, forallb separator_ok seps = true ->
  displays b (fence_join (map (fun c => [c]) seps) ss) (with_separators seps ls).
Proof.
  induction 1 as [|s l ss ls H F IH]; intros seps K; [apply displays_nil|]. destruct F as [|s' l' ss ls H' F]; [exact H|].
  change (with_separators seps (l :: l' :: ls)) with
    (l ++ match seps with [] => Atom (Chr 44) :: with_separators [] (l' :: ls) | [c] => separator_items c ++ with_separators [c] (l' :: ls)
          | c :: seps' => separator_items c ++ with_separators seps' (l' :: ls) end).
  change (fence_join (map (fun c => [c]) seps) (s :: s' :: ss)) with
    (s ++ match map (fun c => [c]) seps with [] => lit "," ++ fence_join [] (s' :: ss) | [x] => x ++ fence_join [x] (s' :: ss)
          | x :: m => x ++ fence_join m (s' :: ss) end).
  assert (Z : forall c y z, separator_ok c = true -> displays b y z -> displays b (s ++ [c] ++ y) (l ++ separator_items c ++ z)).
  { intros c y z C D. destruct (displays_separator b c C) as (DC & LC & MC). apply displays_join2; [exact H| |right; exact LC].
    apply displays_join2; auto. }
  destruct seps as [|c [|d seps]]; cbn [map].
  - apply (Z 44%N); [reflexivity|]. apply (IH [] eq_refl).
  - cbn [forallb] in K. apply andb_true_iff in K as [K1 _]. apply Z; [exact K1|]. apply (IH [c]). cbn. rewrite K1. reflexivity.
  - cbn [forallb] in K. apply andb_true_iff in K as [K1 K2]. apply Z; [exact K1|]. apply (IH (d :: seps) K2).
Qed.

(** ** Rows and cells *)
Lemma cells_read b ss ls : Forall2 (displays b) ss ls -> neat (join (lit " & ") ss) /\
  forall b0 e u ar C R, bracketed b0 ar = b -> exists x c,
    read_tokens b0 (tex_tokens (join (lit " & ") ss)) (State (Level [] C R Anything) ((ByBegin e, u) :: ar))
    = Some (State (Level x c R Anything) ((ByBegin e, u) :: ar)) /\ rev (rev x :: c) = rev C ++ at_least_one [] ls.
Proof.
  induction 1 as [|s l ss ls [N D] F IH].
  - split; [apply neat_nil|]. intros. exists [], C. split; [reflexivity|]. reflexivity.
  - destruct F as [|s' l' ss ls D' F].
    + split; [exact N|]. intros b0 e u ar C R B. cbn [join].
      rewrite (D b0 (State (Level [] C R Anything) ((ByBegin e, u) :: ar)) B eq_refl). eexists _, _. split; [reflexivity|].
      cbn. rewrite app_nil_r, rev_involutive. reflexivity.
    + destruct IH as [N' IH]. change (join (lit " & ") (s :: s' :: ss)) with (s ++ lit " & " ++ join (lit " & ") (s' :: ss)). split.
      * apply neat_app; [exact N|]. apply neat_app; [apply neat_check; reflexivity|exact N'].
      * intros b0 e u ar C R B. rewrite tokens_app_nonletter by (try apply N; reflexivity). rewrite (tokens_app_none (lit " & ")) by reflexivity.
        rewrite read_app, (D b0 (State (Level [] C R Anything) ((ByBegin e, u) :: ar)) B eq_refl), read_app.
        change (tex_tokens (lit " & ")) with [Chr 32; Chr 38; Chr 32]. unfold more. cbn [current around read cells rows].
        replace (read_tokens b0 [Chr 32; Chr 38; Chr 32] (State (Level (rev l ++ []) C R Anything) ((ByBegin e, u) :: ar)))
          with (Some (State (Level [] (l :: C) R Anything) ((ByBegin e, u) :: ar)))
          by (rewrite app_nil_r; cbn; unfold finish_cell; cbn; rewrite rev_involutive; reflexivity).
        destruct (IH b0 e u ar (l :: C) R B) as (x & c & E & Z). rewrite E. exists x, c. split; [reflexivity|]. rewrite Z. cbn [rev at_least_one].
        rewrite <- app_assoc. reflexivity.
Qed.
Lemma displays_cells b ss ls : Forall2 (displays b) ss ls -> displays_rows b (join (lit " & ") ss) [at_least_one [] ls].
Proof.
  intros F. destruct (cells_read b ss ls F) as [N D]. split; [exact N|]. intros b0 e u ar R B.
  destruct (D b0 e u ar [] R B) as (x & c & E & Z). exists x, c, R. split; [exact E|]. cbn [rev app] in Z |- *. rewrite Z. reflexivity.
Qed.
Lemma displays_rows_join b s1 r1 s2 r2 : displays_rows b s1 r1 -> displays_rows b s2 r2 -> displays_rows b (s1 ++ (lit " \\" ++ nl) ++ s2) (r1 ++ r2).
Proof.
  intros [N1 D1] [N2 D2]. split.
  - apply neat_app; [exact N1|]. apply neat_app; [apply neat_check; reflexivity|exact N2].
  - intros b0 e u ar R B. rewrite tokens_app_nonletter by (try apply N1; reflexivity). rewrite (tokens_app_none (lit " \\" ++ nl)) by reflexivity.
    destruct (D1 b0 e u ar R B) as (x & c & R1 & E & Z). rewrite read_app, E, read_app.
    replace (read_tokens b0 (tex_tokens (lit " \\" ++ nl)) (State (Level x c R1 Anything) ((ByBegin e, u) :: ar)))
      with (Some (State (Level [] [] (rev (rev x :: c) :: R1) Anything) ((ByBegin e, u) :: ar))) by reflexivity.
    destruct (D2 b0 e u ar (rev (rev x :: c) :: R1) B) as (x' & c' & R' & E' & Z'). rewrite E'. exists x', c', R'. split; [reflexivity|].
    rewrite Z', Z, <- app_assoc. reflexivity.
Qed.
Lemma displays_table b ss rs : Forall2 (fun s r => displays_rows b s [r]) ss rs -> displays_rows b (join (lit " \\" ++ nl) ss) (at_least_one [[]] rs).
Proof.
  induction 1 as [|s r ss rs H F IH].
  - apply rows_displays, displays_nil.
  - destruct F as [|s' r' ss rs H' F]; [exact H|].
    change (join (lit " \\" ++ nl) (s :: s' :: ss)) with (s ++ (lit " \\" ++ nl) ++ join (lit " \\" ++ nl) (s' :: ss)).
    apply (displays_rows_join b s [r]); [exact H|exact IH].
Qed.
Lemma rows_space b s rs : displays_rows b s rs -> displays_rows b (nl ++ s ++ nl) rs.
Proof.
  intros [N D]. split.
  - apply neat_app; [apply neat_check; reflexivity|]. apply neat_app; [exact N|apply neat_check; reflexivity].
  - intros b0 e u ar R B. rewrite tokens_app_none by reflexivity. rewrite tokens_app_nonletter by (try apply N; reflexivity).
    change (tex_tokens nl) with [Chr 10]. rewrite read_app.
    replace (read_tokens b0 [Chr 10] (State (Level [] [] R Anything) ((ByBegin e, u) :: ar)))
      with (Some (State (Level [] [] R Anything) ((ByBegin e, u) :: ar))) by reflexivity.
    destruct (D b0 e u ar R B) as (x & c & R' & E & Z). rewrite read_app, E. exists x, c, R'. split; [reflexivity|exact Z].
Qed.

(** ** Short texts *)
Definition tight (s : str) (l : list item) : Prop := (l = [] -> s = []) /\ (forall c, l = [Atom (Chr c)] -> s = [c]).
Lemma displays_one b s l : displays b s l -> tight s l -> Nat.ltb 1 (length s) = negb (single l).
Proof.
  intros D [T0 T1]. apply displays_tex in D. destruct s as [|c [|d s]].
  - vm_compute in D. injection D as <-. reflexivity.
  - assert (X : forall t, tex_tokens [c] = [t] -> t <> Word [] -> t = Chr c).
    { intros t. destruct (N.eq_dec c backslash) as [->|NE]; [vm_compute; intros E W; exfalso; apply W; congruence|].
      destruct (tokens_plain [c]) as [E _]; [intros x [<-|[]]; exact NE|]. rewrite E. cbn. congruence. }
    cbn [length]. change (Nat.ltb 1 1) with false. destruct (N.eq_dec c backslash) as [->|NE].
    { destruct b; vm_compute in D; discriminate. }
    destruct (tokens_plain [c]) as [E _]; [intros x [<-|[]]; exact NE|]. unfold tex_reads in D. rewrite E in D. cbn [map read_tokens] in D.
    unfold read_token, read_anything in D. cbn [fresh current next around blank bracketed] in D.
    repeat match type of D with context [if ?e then _ else _] => destruct e end; cbn in D; try discriminate; injection D as <-; reflexivity.
  - cbn [length]. change (Nat.ltb 1 (S (S (length s)))) with true. destruct l as [|[[| |x]| | | | | |] [|]]; try reflexivity.
    + rewrite (T0 eq_refl) in *. discriminate (T0 eq_refl).
    + discriminate (T1 _ eq_refl).
Qed.
Lemma tight_other s i l : (forall c, i = Atom (Chr c) -> l <> []) -> tight s (i :: l).
Proof. intros H. split; [discriminate|]. intros c E. injection E as -> ->. destruct (H c eq_refl eq_refl). Qed.
Lemma tight_long s l : 1 < length l -> tight s l.
Proof. intros H. split; [intros ->; cbn in H; lia|intros c ->; cbn in H; lia]. Qed.
Lemma tight_scripts s sub sup l l' : with_scripts sub sup l = Some l' -> tight s l'.
Proof.
  intros W. apply with_scripts_last in W. destruct W as (l0 & i & j & -> & A & ->). split; [destruct l0; discriminate|].
  intros c E. destruct l0 as [|k l0]; [|destruct l0; discriminate]. injection E as ->.
  destruct i; cbn in A; try discriminate. destruct (one_of _ _); [|discriminate]. destruct (one_of _ _); discriminate.
Qed.
Lemma displays_parens_if b s l : displays b s l -> tight s l -> displays b (paren_if_long s) (parens_if_long l).
Proof.
  intros D T. unfold paren_if_long, parens_if_long. rewrite (displays_one b s l D T). destruct (single l); cbn [negb]; [exact D|apply displays_parens, D].
Qed.
Lemma displays_base b t s l : displays b s l -> tight s l ->
  displays b (base_latex t s) (if Nat.ltb 1 (length (t_children t)) then parens_if_long l else l).
Proof.
  intros D T. unfold base_latex. destruct (Nat.ltb 1 (length (t_children t))); [|exact D]. cbn [andb]. apply (displays_parens_if b s l D T).
Qed.

(** ** Tokens, notations, accents *)
Lemma unfinished_token s : forall m, mode m s = Some [] -> In (Word []) (tokens_from m s).
Proof.
  induction s as [|c s IH]; intros m E.
  - cbn in E. subst. cbn. auto.
  - cbn [mode tokens_from] in *. destruct m as [w|].
    + destruct (ascii_letter c); [apply IH; exact E|]. destruct w as [|d w]; [right; apply IH; exact E|].
      destruct (c =? backslash)%N; [right; apply IH; exact E|right; right; apply IH; exact E].
    + destruct (c =? backslash)%N; [apply IH; exact E|right; apply IH; exact E].
Qed.
Lemma read_unfinished b ts : In (Word []) ts -> forall st, read_tokens b ts st = None.
Proof.
  induction ts as [|t ts IH]; intros I st; [destruct I|]. cbn [read_tokens]. destruct I as [->|I].
  - replace (read_token b (Word []) st) with (@None state); [reflexivity|]. unfold read_token, read_anything. cbn [blank is_chr].
    destruct (next (current st)); reflexivity.
  - destruct (read_token b t st); [apply IH; exact I|reflexivity].
Qed.
Lemma displays_token b s l : token_formula b s = Some l -> displays b s l /\ tight s l.
Proof.
  unfold token_formula. destruct s as [|x s]; [intros E; injection E as <-; split; [apply displays_nil|split; [auto|discriminate]]|].
  set (u := x :: s). destruct (forallb _ (tex_tokens u)) eqn:A; [|discriminate]. intros E.
  assert (R : tex_reads b u = Some l /\ tight u l).
  { destruct (tex_reads b u) as [[|i k]|]; try discriminate. destruct i as [[| |c]| | | | | |], k; try (injection E as <-; split; [reflexivity|]; apply tight_other; discriminate).
    destruct (str_eqb u [c]) eqn:Q; [|discriminate]. apply str_eqb_eq in Q. injection E as <-. split; [reflexivity|]. split; [discriminate|].
    intros d H. injection H as <-. exact Q. }
  destruct R as [R TT]. split; [|exact TT]. apply displays_reads; [|exact R]. split.
  - intros M. apply unfinished_token in M. apply (read_unfinished b _ ) with (st := State fresh []) in M. unfold tex_reads in R.
    change (tokens_from None u) with (tex_tokens u) in M. rewrite M in R. discriminate.
  - intros c I. rewrite forallb_forall in A. specialize (A _ I). cbn in A. apply negb_true_iff in A. exact A.
Qed.
Lemma displays_command1 b w s l : command (lit w) 0 = true -> displays false s l -> displays b ((backslash :: lit w) ++ braced s) [Applied (lit w) [l]].
Proof.
  intros C D. pose proof (displays_command b (lit w) 0 [s] [l] C ltac:(repeat constructor; apply D) eq_refl) as H.
  cbn [map concat] in H. rewrite app_nil_r in H. exact H.
Qed.
Lemma displays_command2 b w s l s' l' : command (lit w) 1 = true -> displays false s l -> displays false s' l' ->
  displays b ((backslash :: lit w) ++ braced s ++ braced s') [Applied (lit w) [l; l']].
Proof.
  intros C D D'. pose proof (displays_command b (lit w) 1 [s; s'] [l; l'] C ltac:(repeat (constructor; [assumption|]); constructor) eq_refl) as H.
  cbn [map concat] in H. rewrite app_nil_r in H. exact H.
Qed.
Lemma enclosed_reads b name s l : displays false s l ->
  match notation_formula name l with Some i => displays b (enclosed name s) [i] | None => True end.
Proof.
  intros D.
  assert (DA : displays false (lit "\left" ++ [46%N] ++ s ++ lit "\right" ++ [124%N]) [Fenced (Chr 46) (Chr 124) l]).
  { apply displays_fence; [reflexivity|reflexivity|discriminate|exact D]. }
  assert (DL : displays false (lit "\left.\right)" ++ s) (Fenced (Chr 46) (Chr 41) [] :: l)).
  { apply (displays_join2 false (lit "\left.\right)") s [Fenced (Chr 46) (Chr 41) []]); [apply displays_const; reflexivity|exact D|left; reflexivity]. }
  assert (DU : displays false (lit "\underline" ++ braced s) [Applied (lit "underline") [l]]) by (apply displays_command1; [reflexivity|exact D]).
  assert (DP : displays false (lit "\angle " ++ lit "\underline" ++ braced s) [Atom (Word (lit "angle")); Applied (lit "underline") [l]]).
  { apply (displays_join2 false (lit "\angle ") _ [Atom (Word (lit "angle"))]); [apply displays_const; reflexivity|exact DU|left; reflexivity]. }
  destruct (str_in name (map (fun p => lit (fst p)) notations)) eqn:K.
  - apply str_in_spec in K. cbn [notations map fst] in K.
    repeat (destruct K as [<-|K]; [first
      [ exact I
      | exact (displays_command1 b "boxed" s l eq_refl D) | exact (displays_command1 b "overline" s l eq_refl D)
      | exact (displays_command1 b "underline" s l eq_refl D) | exact (displays_command1 b "cancel" s l eq_refl D)
      | exact (displays_command1 b "bcancel" s l eq_refl D) | exact (displays_command1 b "hcancel" s l eq_refl D)
      | exact (displays_sqrt b s l D)
      | exact (displays_command2 b "cancelto" [] [] s l eq_refl (displays_nil false) D)
      | replace (enclosed _ s) with (lit "\overline" ++ braced (lit "\left" ++ [46%N] ++ s ++ lit "\right" ++ [124%N]))
          by (unfold braced; rewrite <- !app_assoc; reflexivity);
        exact (displays_command1 b "overline" _ _ eq_refl DA)
      | replace (enclosed _ s) with (braced (lit "\angle " ++ lit "\underline" ++ braced s))
          by (unfold braced; rewrite <- !app_assoc; reflexivity);
        exact (displays_group b _ _ DP) ]|]).
    destruct K.
  - unfold notation_formula, enclosed, notations. cbn [notation_lookup].
    unfold str_in in K. cbn [notations map fst existsb] in K. rewrite !orb_false_iff in K. decompose [and] K.
    repeat match goal with H : str_eqb name _ = false |- _ => rewrite H; clear H end. cbn [orb].
    replace (lit "\overline{\left.\right)" ++ s ++ lit "}") with (lit "\overline" ++ braced (lit "\left.\right)" ++ s))
      by (unfold braced; rewrite <- !app_assoc; reflexivity).
    apply displays_command1; [reflexivity|exact DL].
Qed.
Lemma displays_enclosed b name s l i : displays false s l -> notation_formula name l = Some i -> displays b (enclosed name s) [i].
Proof. intros D E. pose proof (enclosed_reads b name s l D) as H. rewrite E in H. exact H. Qed.
Lemma accent_render t : forall inside w, accent_of t = Some w -> render inside t = Ok (backslash :: w) /\ In w (map lit ["hat"; "bar"; "underbrace"; "overbrace"]).
Proof.
  induction t as [n v ch a IH] using tree_ind'. intros inside w E. cbn [accent_of] in E.
  assert (Z : forall s, token_latex n v a = Some s -> render inside (T n v ch a) = Ok s).
  { intros s. unfold token_latex. cbn [render]. unfold node. destruct (tag_of n); intros Q; try discriminate; injection Q as <-; reflexivity. }
  destruct (token_latex n v a) as [[|c s]|] eqn:L; [discriminate| |].
  - destruct (c =? backslash)%N eqn:C; cbn [andb] in E; [|discriminate]. destruct (str_in s _) eqn:I in E; [|discriminate]. injection E as <-.
    apply N.eqb_eq in C. subst c. split; [apply Z; reflexivity|]. apply str_in_spec. exact I.
  - destruct (tag_of n) eqn:G; try discriminate. destruct ch as [|c [|]]; try discriminate. inversion IH as [|? ? H _]; subst.
    destruct (H (inside || is_table n) w E) as [R I]. split; [|exact I]. cbn [render map]. unfold node. rewrite G. cbn [map snd rseq]. rewrite R. reflexivity.
Qed.
Lemma accent_none s l : displays false s l -> str_in s (map lit ["\hat"; "\bar"; "\underbrace"; "\overbrace"]) = false.
Proof.
  intros D. apply displays_tex in D. destruct (str_in s _) eqn:E; [|reflexivity]. apply str_in_spec in E.
  cbn [map] in E. repeat (destruct E as [<-|E]; [vm_compute in D; discriminate|]). destruct E.
Qed.
Lemma accent_word w : In w (map lit ["hat"; "bar"; "underbrace"; "overbrace"]) ->
  str_in (backslash :: w) (map lit ["\hat"; "\bar"; "\underbrace"; "\overbrace"]) = true /\ command w 0 = true.
Proof. cbn [map]. intros E. repeat (destruct E as [<-|E]; [split; vm_compute; reflexivity|]). destruct E. Qed.

(** ** Trees *)
Definition shown (b : bool) (s : str) (p : piece) : Prop :=
  match p with Items l => displays b s l /\ tight s l | Cells rs => displays_rows b s rs end.
Lemma oseq_forall {A B} (f : A -> option B) l : forall r, oseq (map f l) = Some r <-> Forall2 (fun x y => f x = Some y) l r.
Proof.
  induction l as [|x l IH]; intros r; cbn [map oseq].
  - split; [intros E; injection E as <-; constructor|inversion 1; reflexivity].
  - unfold obind at 1. split.
    + destruct (f x) as [y|] eqn:F; [|discriminate]. destruct (oseq (map f l)) as [r'|]; [|discriminate]. cbn [obind]. intros E. injection E as <-.
      constructor; [exact F|]. apply IH. reflexivity.
    + inversion 1 as [|? y ? r' F H' ]; subst. rewrite F. apply IH in H'. rewrite H'. reflexivity.
Qed.
Lemma squeeze_tight b s l : displays b s l -> tight s l -> tight (squeeze s) l.
Proof.
  intros D [T0 T1]. split; [intros E; rewrite (T0 E); reflexivity|]. intros c E. rewrite (T1 c E) in *. subst l.
  apply displays_tex in D. destruct (is_space c) eqn:S.
  - exfalso. assert (X : displays b [c] []) by (apply displays_space; repeat constructor; exact S). apply displays_tex in X. congruence.
  - apply squeeze_shows; [exists [], []; repeat constructor|]. apply not_white. exact S.
Qed.
Definition is_shown (c : tree) : Prop := forall b inside p, piece_of b inside c = Some p -> exists s, render inside c = Ok s /\ shown b s p.
Lemma list_shown {A} (f : tree -> option A) (P : str -> A -> Prop) i ch ys : Forall (fun c => forall y, f c = Some y -> exists s, render i c = Ok s /\ P s y) ch ->
  oseq (map f ch) = Some ys -> exists ss, rseq (map (render i) ch) = Ok ss /\ Forall2 P ss ys.
Proof.
  intros F E. apply oseq_forall in E. induction E as [|c y ch ys H E IH].
  - exists []. split; [reflexivity|constructor].
  - inversion F as [|? ? Fc F']; subst. destruct (IH F') as (ss & R & G). destruct (Fc y H) as (s & Rs & Ps). exists (s :: ss). split.
    + cbn [map rseq]. rewrite Rs, R. reflexivity.
    + constructor; assumption.
Qed.
Lemma part_shown b i c l : is_shown c -> obind (piece_of b i c) formula = Some l -> exists s, render i c = Ok s /\ displays b s l /\ tight s l.
Proof.
  intros H E. destruct (piece_of b i c) as [[k|]|] eqn:P; try discriminate. cbn in E. injection E as ->.
  destruct (H b i _ P) as (s & R & D). exists s. split; [exact R|exact D].
Qed.
Lemma parts_shown b i ch ls : Forall is_shown ch -> oseq (map (fun c => obind (piece_of b i c) formula) ch) = Some ls ->
  exists ss, rseq (map (render i) ch) = Ok ss /\ Forall2 (displays b) ss ls.
Proof.
  intros F. apply list_shown. eapply Forall_impl; [|exact F]. intros c H l E. destruct (part_shown b i c l H E) as (s & R & D & _). eauto.
Qed.
Lemma pieces_shown b i ch ps : Forall is_shown ch -> oseq (map (piece_of b i) ch) = Some ps ->
  exists ss, rseq (map (render i) ch) = Ok ss /\ Forall2 (shown b) ss ps.
Proof. intros F. apply list_shown. eapply Forall_impl; [|exact F]. intros c H. apply H. Qed.
Lemma formulas_shown b ss ps ls : Forall2 (shown b) ss ps -> oseq (map formula ps) = Some ls -> Forall2 (displays b) ss ls.
Proof.
  intros F E. apply oseq_forall in E. revert ss F. induction E as [|p l ps ls H E IH]; intros ss F; inversion F as [|? ? ? ? D F']; subst; constructor.
  - destruct p; [injection H as ->|discriminate]. apply D.
  - apply IH. exact F'.
Qed.
Lemma tight_multiple s l : single l = false -> tight s l.
Proof. destruct l as [|[[| |]| | | | | |] [|]]; try discriminate; intros _; split; discriminate. Qed.
Lemma row_shown b sep (f : list (list item) -> list item) ss ps p : (forall s, join sep [s] = s) ->
  (forall ss ls, Forall2 (displays b) ss ls -> displays b (join sep ss) (f ls)) ->
  in_row f ps = Some p -> Forall2 (shown b) ss ps -> shown b (join sep ss) p.
Proof.
  intros J H E F. destruct ps as [|q [|q' ps]].
  - inversion F; subst. cbn in E. injection E as <-. split; [apply displays_nil|]. split; [reflexivity|discriminate].
  - inversion F as [|s ? ss' ? D F']; subst. inversion F'; subst. injection E as <-. rewrite J. exact D.
  - unfold in_row in E. destruct (oseq (map formula (q :: q' :: ps))) as [ls|] eqn:O; [|discriminate]. cbn [obind] in E.
    destruct (single (f ls)) eqn:N; [discriminate|]. injection E as <-. split; [apply H; eapply formulas_shown; eauto|apply tight_multiple; exact N].
Qed.
Lemma spaced_row ss : 1 < length ss -> existsb is_space (join (lit " ") ss) = true.
Proof.
  destruct ss as [|s [|s' ss]]; cbn [length]; try lia. intros _. change (join (lit " ") (s :: s' :: ss)) with (s ++ lit " " ++ join (lit " ") (s' :: ss)).
  rewrite existsb_app. change (lit " ") with [32%N]. cbn [app existsb]. change (is_space 32) with true. cbn. apply orb_true_r.
Qed.
Lemma fence_token_spec b s t : fence_token b s = Some t -> exists c, s = [c] /\ t = Chr c /\ fence (Chr c) = true /\ (b = true -> c <> 93%N).
Proof.
  unfold fence_token. destruct s as [|c [|]]; try discriminate. destruct (fence (Chr c)) eqn:F; cbn [andb]; [|discriminate].
  destruct ((c =? 93)%N && b) eqn:Q; cbn [negb]; [discriminate|]. intros E. injection E as <-. exists c. repeat split; auto.
  intros -> ->. discriminate.
Qed.
Lemma fence_env_letters' o c : letters (lit (fence_env o c)).
Proof. unfold fence_env. repeat match goal with |- context [if ?e then _ else _] => destruct e end; repeat constructor. Qed.

Lemma piece_shown t : is_shown t.
Proof.
  induction t as [n v ch a IH] using tree_ind'. intros b inside p E. cbn [piece_of] in E. cbn [render]. unfold node. rewrite kids_snd.
  change (str_eqb n (lit "mtable")) with (is_table n) in E. set (i := inside || is_table n) in *.
  assert (TOK : forall s l, token_formula b s = Some l -> exists s0, Ok s = Ok s0 /\ shown b s0 (Items l)).
  { intros s l X. exists s. split; [reflexivity|]. apply displays_token. exact X. }
  assert (ROW : forall b' q, obind (oseq (map (piece_of b' i) ch)) (in_row (@concat item)) = Some q ->
            exists ss, rseq (map (render i) ch) = Ok ss /\ shown b' (join (lit " ") ss) q).
  { intros b' q X. destruct (oseq (map (piece_of b' i) ch)) as [ps|] eqn:O; [|discriminate]. cbn [obind] in X.
    destruct (pieces_shown b' i ch ps IH O) as (ss & R & F). exists ss. split; [exact R|].
    apply (row_shown b' (lit " ") (@concat item) ss ps); auto. apply displays_row. }
  assert (BR : forall l, obind (obind (oseq (map (piece_of false i) ch)) (in_row (@concat item))) formula = Some l ->
            exists ss, rseq (map (render i) ch) = Ok ss /\ displays false (join (lit " ") ss) l).
  { intros l X. destruct (obind (oseq (map (piece_of false i) ch)) (in_row (@concat item))) as [[k|]|] eqn:Q; try discriminate.
    cbn in X. injection X as ->. destruct (ROW false _ Q) as (ss & R & D & _). eauto. }
  assert (ONE : forall s j, (forall c, j <> Atom (Chr c)) -> displays b s [j] -> shown b s (Items [j])).
  { intros s j NA D. split; [exact D|]. apply tight_other. intros c Q. destruct (NA c Q). }
  destruct (tag_of n) eqn:TG.
  - (* math *) destruct (ROW b p E) as (ss & R & D). rewrite R. exists (squeeze (join (lit " ") ss)). split; [reflexivity|].
    destruct p as [l|rs]; cbn [shown] in *; [|apply rows_squeeze; exact D]. destruct D as [D TT]. split; [apply displays_squeeze; exact D|eapply squeeze_tight; eauto].
  - (* mi *) unfold token_latex in E. rewrite TG in E. cbn [obind] in E. destruct (token_formula b (mi_latex v a)) eqn:X; [|discriminate]. injection E as <-. apply TOK. exact X.
  - unfold token_latex in E. rewrite TG in E. cbn [obind] in E. destruct (token_formula b (mo_latex v)) eqn:X; [|discriminate]. injection E as <-. apply TOK. exact X.
  - unfold token_latex in E. rewrite TG in E. cbn [obind] in E. destruct (token_formula b (mn_latex v)) eqn:X; [|discriminate]. injection E as <-. apply TOK. exact X.
  - unfold token_latex in E. rewrite TG in E. cbn [obind] in E. destruct (token_formula b (mtext_latex v a)) eqn:X; [|discriminate]. injection E as <-. apply TOK. exact X.
  - (* msqrt *) match type of E with obind ?x _ = _ => destruct x as [l|] eqn:X; [|discriminate] end. injection E as <-.
    destruct (BR l eq_refl) as (ss & R & D). rewrite R. eexists. split; [reflexivity|]. apply ONE; [discriminate|]. apply displays_sqrt. exact D.
  - (* mfenced *)
    assert (KF : map fst (map (fun c => (c, render i c)) ch) = ch) by (rewrite map_map; apply map_id). rewrite KF.
    destruct (existsb has_table ch).
    + destruct ch as [|c [|]]; try discriminate. destruct (piece_of b i c) as [q|] eqn:P; [|discriminate]. cbn [obind] in E.
      inversion IH as [|? ? Ic _]; subst. destruct (Ic b i q P) as (s & R & D). cbn [map rseq]. rewrite R. cbn [rbind].
      unfold fenced_matrix. cbn [concat]. rewrite app_nil_r. set (e := fence_env (attr a "open") (attr a "close")) in *.
      set (rs := match q with Items l => [[l]] | Cells rs => rs end) in *.
      assert (M : displays b (env e (nl ++ s ++ nl)) [Matrix (lit e) rs]).
      { apply displays_env; [apply fence_env_letters'|]. apply rows_space. destruct q as [l|rs']; [apply rows_displays; apply D|exact D]. }
      destruct (String.eqb e "matrix").
      * destruct (fence_token b (attr a "open")) as [o|] eqn:FO; [|discriminate]. destruct (fence_token b (attr a "close")) as [c'|] eqn:FC; [|discriminate].
        injection E as <-. apply fence_token_spec in FO, FC. destruct FO as (o0 & -> & -> & FO & NO). destruct FC as (c0 & -> & -> & FC & NC).
        eexists. split; [reflexivity|]. apply ONE; [discriminate|]. apply displays_fence; auto.
      * injection E as <-. eexists. split; [reflexivity|]. apply ONE; [discriminate|exact M].
    + destruct (fence_token b (default (attr a "open") "(")) as [o|] eqn:FO; [|discriminate].
      destruct (fence_token b (default (attr a "close") ")")) as [c'|] eqn:FC; [|discriminate]. cbn [obind] in E.
      destruct (forallb separator_ok (attr a "separators")) eqn:S; [|discriminate].
      destruct (oseq _) as [ls|] eqn:O in E; [|discriminate]. injection E as <-. destruct (parts_shown b i ch ls IH O) as (ss & R & F). rewrite R. cbn [rbind].
      apply fence_token_spec in FO, FC. destruct FO as (o0 & -> & -> & FO & NO). destruct FC as (c0 & -> & -> & FC & NC).
      eexists. split; [reflexivity|]. apply ONE; [discriminate|]. apply displays_fence; auto. apply displays_separated; assumption.
  - (* mfrac *) destruct ch as [|x [|y [|]]]; try discriminate. inversion IH as [|? ? Ix IH']; subst. inversion IH' as [|? ? Iy _]; subst. cbn [map].
    destruct (truthy (attr a "bevelled")).
    + destruct (obind (piece_of b i x) formula) as [lx|] eqn:X; [|discriminate]. destruct (obind (piece_of b i y) formula) as [ly|] eqn:Y; [|discriminate].
      injection E as <-. destruct (part_shown b i x lx Ix X) as (sx & Rx & Dx & Tx). destruct (part_shown b i y ly Iy Y) as (sy & Ry & Dy & Ty).
      rewrite Rx, Ry. eexists. split; [reflexivity|]. split.
      * apply displays_join2; [apply displays_parens_if; assumption| |right; reflexivity].
        apply (displays_join2 b (lit "/") (paren_if_long sy) [Atom (Chr 47)]); [|apply displays_parens_if; assumption|left; reflexivity].
        apply displays_const; [reflexivity|destruct b; reflexivity].
      * assert (L : forall u w z, tight w u -> parens_if_long u = z -> z = [] -> paren_if_long w = []).
        { intros u w z [T0 _] <-. unfold parens_if_long. destruct (single u) eqn:S; [|discriminate]. intros Q. rewrite (T0 Q). reflexivity. }
        split.
        -- intros Q. destruct (parens_if_long lx); discriminate.
        -- intros c Q. destruct (parens_if_long lx) as [|e ex] eqn:PX.
           ++ cbn [app] in Q. injection Q as <- PY. rewrite (L lx sx _ Tx PX eq_refl), (L ly sy _ Ty PY eq_refl). reflexivity.
           ++ destruct ex; discriminate.
    + destruct (obind (piece_of false i x) formula) as [lx|] eqn:X; [|discriminate]. destruct (obind (piece_of false i y) formula) as [ly|] eqn:Y; [|discriminate].
      injection E as <-. destruct (part_shown false i x lx Ix X) as (sx & Rx & Dx & Tx). destruct (part_shown false i y ly Iy Y) as (sy & Ry & Dy & Ty).
      rewrite Rx, Ry. eexists. split; [reflexivity|]. apply ONE; [discriminate|]. apply (displays_command2 b "frac"); [reflexivity|exact Dx|exact Dy].
  - (* mroot *) destruct ch as [|x [|y [|]]]; try discriminate. inversion IH as [|? ? Ix IH']; subst. inversion IH' as [|? ? Iy _]; subst. cbn [map].
    destruct b; [discriminate|]. destruct (obind (piece_of false i x) formula) as [lx|] eqn:X; [|discriminate].
    destruct (obind (piece_of true i y) formula) as [ly|] eqn:Y; [|discriminate].
    injection E as <-. destruct (part_shown false i x lx Ix X) as (sx & Rx & Dx & Tx). destruct (part_shown true i y ly Iy Y) as (sy & Ry & Dy & Ty).
    rewrite Rx, Ry. eexists. split; [reflexivity|]. apply ONE; [discriminate|]. apply displays_root; assumption.
  - (* maction *)
    assert (X : truthy (attr a "actiontype") && negb (str_eqb (attr a "actiontype") (lit "toggle")) = fixed_action a).
    { unfold fixed_action. destruct (attr a "actiontype"); reflexivity. }
    rewrite X. destruct (fixed_action a).
    + destruct ch as [|c ch]; [discriminate|]. inversion IH as [|? ? Ic _]; subst. destruct (Ic b i p E) as (s & R & D). cbn [map]. exists s. auto.
    + destruct (oseq (map (piece_of b i) ch)) as [ps|] eqn:O; [|discriminate]. cbn [obind] in E.
      destruct (pieces_shown b i ch ps IH O) as (ss & R & F). rewrite R. eexists. split; [reflexivity|].
      apply (row_shown b (lit " \Longrightarrow ") with_arrows ss ps); auto. apply displays_arrows.
  - (* menclose *) match type of E with obind ?x _ = _ => destruct x as [l|] eqn:X; [|discriminate] end. cbn [obind] in E.
    destruct (notation_formula _ l) as [j|] eqn:NF; [|discriminate]. injection E as <-.
    destruct (BR l eq_refl) as (ss & R & D). rewrite R. eexists. split; [reflexivity|]. apply ONE; [|eapply displays_enclosed; eauto].
    intros c ->. revert NF. unfold notation_formula. repeat match goal with |- context [if ?e then _ else _] => destruct e end; discriminate.
  - (* merror *) match type of E with obind ?x _ = _ => destruct x as [l|] eqn:X; [|discriminate] end. injection E as <-.
    destruct (BR l eq_refl) as (ss & R & D). rewrite R. eexists. split; [reflexivity|]. split; [|apply tight_long; cbn; lia].
    apply (displays_join2 b (lit "\color{red}") _ [Applied (lit "color") [map (fun c => Atom (Chr c)) (lit "red")]] [Group l]); [|apply displays_group; exact D|left; reflexivity].
    apply displays_const; [reflexivity|destruct b; reflexivity].
  - (* mphantom *) injection E as <-. exists []. split; [reflexivity|]. split; [apply displays_nil|]. split; [reflexivity|discriminate].
  - (* msup *) destruct ch as [|bs scripts]; [discriminate|]. inversion IH as [|? ? Ib IH']; subst.
    destruct (obind (piece_of b i bs) formula) as [lb|] eqn:B; [|discriminate]. destruct (oseq _) as [ls|] eqn:O in E; [|discriminate].
    cbn [obind] in E. destruct ls as [|lx [|]]; try discriminate. apply oseq_forall in O. inversion O as [|x ? ? ? Ox O']; subst. inversion O'; subst. inversion IH' as [|? ? Ix _]; subst.
    destruct (with_scripts _ _ _) as [l'|] eqn:W in E; [|discriminate]. injection E as <-.
    destruct (part_shown b i bs lb Ib B) as (sb & Rb & Db & Tb). pose proof (displays_base b bs sb lb Db Tb) as DB.
    destruct (part_shown false i x lx Ix Ox) as (sx & Rx & Dx & _).
    cbn [map rseq]. rewrite Rb, Rx. eexists. split; [reflexivity|]. split; [|eapply tight_scripts; exact W]. apply (displays_script b _ _ true sx lx l' DB Dx W).
  - (* msub *) destruct ch as [|bs scripts]; [discriminate|]. inversion IH as [|? ? Ib IH']; subst.
    destruct (obind (piece_of b i bs) formula) as [lb|] eqn:B; [|discriminate]. destruct (oseq _) as [ls|] eqn:O in E; [|discriminate].
    cbn [obind] in E. destruct ls as [|lx [|]]; try discriminate. apply oseq_forall in O. inversion O as [|x ? ? ? Ox O']; subst. inversion O'; subst. inversion IH' as [|? ? Ix _]; subst.
    destruct (with_scripts _ _ _) as [l'|] eqn:W in E; [|discriminate]. injection E as <-.
    destruct (part_shown b i bs lb Ib B) as (sb & Rb & Db & Tb). pose proof (displays_base b bs sb lb Db Tb) as DB.
    destruct (part_shown false i x lx Ix Ox) as (sx & Rx & Dx & _).
    cbn [map rseq]. rewrite Rb, Rx. eexists. split; [reflexivity|]. split; [|eapply tight_scripts; exact W]. apply (displays_script b _ _ false sx lx l' DB Dx W).
  - (* msubsup *) destruct ch as [|bs scripts]; [discriminate|]. inversion IH as [|? ? Ib IH']; subst.
    destruct (obind (piece_of b i bs) formula) as [lb|] eqn:B; [|discriminate]. destruct (oseq _) as [ls|] eqn:O in E; [|discriminate].
    cbn [obind] in E. destruct ls as [|lx [|ly [|]]]; try discriminate. apply oseq_forall in O. inversion O as [|x ? ? ? Ox O']; subst. inversion O' as [|y ? ? ? Oy O'']; subst. inversion O''; subst. inversion IH' as [|? ? Ix IH'']; subst. inversion IH'' as [|? ? Iy _]; subst.
    destruct (with_scripts _ _ _) as [l'|] eqn:W in E; [|discriminate]. injection E as <-.
    destruct (part_shown b i bs lb Ib B) as (sb & Rb & Db & Tb). pose proof (displays_base b bs sb lb Db Tb) as DB.
    destruct (part_shown false i x lx Ix Ox) as (sx & Rx & Dx & _). destruct (part_shown false i y ly Iy Oy) as (sy & Ry & Dy & _).
    cbn [map rseq]. rewrite Rb, Rx, Ry. eexists. split; [reflexivity|]. split; [|eapply tight_scripts; exact W]. apply (displays_scripts b _ _ sx sy lx ly l' DB Dx Dy W).
  - (* mmultiscripts *) destruct ch as [|bs [|x [|y [|]]]]; try discriminate. inversion IH as [|? ? Ib IH1]; subst. inversion IH1 as [|? ? Ix IH2]; subst.
    inversion IH2 as [|? ? Iy _]; subst. destruct (obind (piece_of b i bs) formula) as [lb|] eqn:B; [|discriminate].
    destruct (obind (piece_of false i x) formula) as [lx|] eqn:Ox; [|discriminate]. destruct (obind (piece_of false i y) formula) as [ly|] eqn:Oy; [|discriminate].
    cbn [obind] in E. destruct (part_shown b i bs lb Ib B) as (sb & Rb & Db & Tb). destruct (part_shown false i x lx Ix Ox) as (sx & Rx & Dx & _). destruct (part_shown false i y ly Iy Oy) as (sy & Ry & Dy & _).
    cbn [length map nth_error nth]. change (Nat.ltb 3 3) with false. change (Nat.leb 4 3) with false. change (Nat.leb 6 3) with false.
    rewrite !andb_false_r. rewrite Rb, Rx, Ry. cbn [rbind].
    destruct (match token_latex (t_name bs) (t_value bs) (t_attributes bs) with Some _ => _ | None => _ end) as [base|] eqn:BA in E; [|discriminate]. cbn [obind] in E.
    destruct (str_eqb (t_name x) (lit "mprescripts")); [discriminate|]. destruct (with_scripts _ _ _) as [l'|] eqn:W in E; [|discriminate]. injection E as <-.
    cbn [rbind app]. eexists. split; [reflexivity|]. split; [|eapply tight_scripts; exact W].
    apply (displays_scripts b _ base sx sy lx ly l'); [|exact Dx|exact Dy|exact W]. unfold paren_if_space.
    destruct bs as [nb vb cb ab]. cbn [t_name t_value t_attributes t_children] in BA. destruct (token_latex nb vb ab) as [s|] eqn:TL.
    + assert (Q : sb = s).
      { revert Rb TL. cbn [render]. unfold node, token_latex. destruct (tag_of nb); intros R1 R2; try discriminate; injection R1 as <-; injection R2 as <-; reflexivity. }
      subst s. destruct (existsb is_space sb); [discriminate|]. injection BA as <-. exact Db.
    + destruct (tag_of nb) eqn:TB; try discriminate. destruct (Nat.ltb_spec 1 (length cb)) as [L|L]; [|discriminate]. injection BA as <-.
      assert (Q : existsb is_space sb = true).
      { revert Rb. cbn [render]. unfold node. rewrite TB, kids_snd. destruct (rseq (map (render (i || is_table nb)) cb)) as [ss|] eqn:R; [|intros R1; discriminate]. cbn [rbind]. intros R1. injection R1 as <-.
        apply spaced_row. apply rseq_Forall2, Forall2_len in R. rewrite map_length in R. rewrite <- R. exact L. }
      rewrite Q. apply displays_parens. exact Db.
  - (* munderover *) destruct ch as [|bs [|x [|y [|]]]]; try discriminate. inversion IH as [|? ? Ib IH1]; subst. inversion IH1 as [|? ? Ix IH2]; subst.
    inversion IH2 as [|? ? Iy _]; subst. destruct (obind (piece_of b i bs) formula) as [lb|] eqn:B; [|discriminate].
    destruct (obind (piece_of false i x) formula) as [lx|] eqn:Ox; [|discriminate]. destruct (obind (piece_of false i y) formula) as [ly|] eqn:Oy; [|discriminate].
    cbn [obind] in E. destruct (part_shown b i bs lb Ib B) as (sb & Rb & Db & Tb). destruct (part_shown false i x lx Ix Ox) as (sx & Rx & Dx & _). destruct (part_shown false i y ly Iy Oy) as (sy & Ry & Dy & _).
    destruct (Nat.eqb (length lb) 1 || Nat.eqb (length (t_children bs)) 0); [|discriminate].
    destruct (with_scripts _ _ _) as [l'|] eqn:W in E; [|discriminate]. injection E as <-.
    cbn [map]. rewrite Rb, Rx, Ry. eexists. split; [reflexivity|]. split; [|eapply tight_scripts; exact W].
    apply (displays_scripts b sb lb sx sy lx ly l'); assumption.
  - (* munder *) destruct ch as [|x [|y [|]]]; try discriminate. inversion IH as [|? ? Ix IH']; subst. inversion IH' as [|? ? Iy _]; subst. change (map (render i) [x; y]) with [render i x; render i y].
    destruct (obind (piece_of false i x) formula) as [lx|] eqn:Ox; [|discriminate]. cbn [obind] in E. destruct (part_shown false i x lx Ix Ox) as (sx & Rx & Dx & _).
    rewrite Rx. destruct (accent_of y) as [w|] eqn:AC.
    + injection E as <-. destruct (accent_render y i w AC) as [Ry Iw]. destruct (accent_word w Iw) as [Sw Cw]. rewrite Ry. cbn [rbind]. rewrite Sw.
      eexists. split; [reflexivity|]. apply ONE; [discriminate|].
      pose proof (displays_command b w 0 [sx] [lx] Cw ltac:(repeat constructor; apply Dx) eq_refl) as H. cbn [map concat] in H. rewrite app_nil_r in H. exact H.
    + destruct (obind (piece_of false i y) formula) as [ly|] eqn:Oy; [|discriminate]. injection E as <-.
      destruct (part_shown false i y ly Iy Oy) as (sy & Ry & Dy & _). rewrite Ry. cbn [rbind]. rewrite (accent_none sy ly Dy).
      eexists. split; [reflexivity|]. apply ONE; [discriminate|]. apply (displays_command2 b "underset"); [reflexivity|exact Dy|exact Dx].
  - (* mover *) destruct ch as [|x [|y [|]]]; try discriminate. inversion IH as [|? ? Ix IH']; subst. inversion IH' as [|? ? Iy _]; subst. change (map (render i) [x; y]) with [render i x; render i y].
    destruct (obind (piece_of false i x) formula) as [lx|] eqn:Ox; [|discriminate]. cbn [obind] in E. destruct (part_shown false i x lx Ix Ox) as (sx & Rx & Dx & _).
    rewrite Rx. destruct (accent_of y) as [w|] eqn:AC.
    + injection E as <-. destruct (accent_render y i w AC) as [Ry Iw]. destruct (accent_word w Iw) as [Sw Cw]. rewrite Ry. cbn [rbind]. rewrite Sw.
      eexists. split; [reflexivity|]. apply ONE; [discriminate|].
      pose proof (displays_command b w 0 [sx] [lx] Cw ltac:(repeat constructor; apply Dx) eq_refl) as H. cbn [map concat] in H. rewrite app_nil_r in H. exact H.
    + destruct (obind (piece_of false i y) formula) as [ly|] eqn:Oy; [|discriminate]. injection E as <-.
      destruct (part_shown false i y ly Iy Oy) as (sy & Ry & Dy & _). rewrite Ry. cbn [rbind]. rewrite (accent_none sy ly Dy).
      eexists. split; [reflexivity|]. apply ONE; [discriminate|]. apply (displays_command2 b "overset"); [reflexivity|exact Dy|exact Dx].
  - (* mtable *)
    destruct (oseq _) as [rs|] eqn:O in E; [|discriminate]. cbn [obind] in E.
    apply (list_shown _ (fun s r => displays_rows b s [r]) i ch rs) in O.
    2:{ eapply Forall_impl; [|exact IH]. intros c Ic r Q. destruct (piece_of b i c) as [q|] eqn:P; [|discriminate]. cbn [obind] in Q.
      destruct (Ic b i q P) as (s & R & D). exists s. split; [exact R|]. destruct q as [l|[|r' [|]]]; try discriminate; injection Q as <-.
      - apply rows_displays, D.
      - exact D. }
    destruct O as (ss & R & F). rewrite R. cbn [rbind]. pose proof (displays_table b ss rs F) as D. cbv zeta in E. destruct (inside || truthy (attr a "innerTable")); injection E as <-; (eexists; split; [reflexivity|]).
    + apply ONE; [discriminate|]. apply displays_env; [repeat constructor|exact D].
    + exact D.
  - (* mtr *) destruct (oseq _) as [ls|] eqn:O in E; [|discriminate]. injection E as <-. destruct (parts_shown b i ch ls IH O) as (ss & R & F).
    rewrite R. eexists. split; [reflexivity|]. apply displays_cells. exact F.
  - (* rows *) destruct (ROW b p E) as (ss & R & D). rewrite R. exists (join (lit " ") ss). split; [reflexivity|exact D].
Qed.

(** ** Ordinary trees *)
Lemma notation_shown name l : str_in name (map lit ["left"; "right"; "madruwb"]) = false ->
  exists i, notation_formula name l = Some i /\ scripted i = false.
Proof.
  cbn [map str_in existsb]. unfold str_in. cbn [existsb]. rewrite !orb_false_iff. intros (A & B & C & _). unfold notation_formula. rewrite A, B, C. cbn [orb].
  repeat match goal with |- context [if ?e then _ else _] => destruct e end; eexists; split; reflexivity.
Qed.
Lemma scripts_fit sub sup l : l <> [] -> existsb scripted l = false -> exists l', with_scripts sub sup l = Some l' /\ l' <> [].
Proof.
  intros NE U. destruct (exists_last NE) as (l0 & i & ->). rewrite with_scripts_app. rewrite existsb_app, orb_false_iff in U. destruct U as [_ U].
  cbn in U. rewrite orb_false_r in U. destruct i; try discriminate; cbn; eexists; (split; [reflexivity|destruct l0; discriminate]).
Qed.
Lemma parens_unscripted l : l <> [] -> parens_if_long l <> [] /\ existsb scripted (parens_if_long l) = false.
Proof.
  intros NE. unfold parens_if_long. destruct l as [|[[| |]| | | | | |] [|]]; try contradiction; split; try discriminate; reflexivity.
Qed.
Definition nonempty {A} (l : list A) : bool := match l with [] => false | _ => true end.
Lemma concat_long (ls : list (list item)) : 1 < length ls -> forallb nonempty ls = true -> single (concat ls) = false.
Proof.
  destruct ls as [|[|x l] [|[|y l'] ls]]; cbn [length forallb nonempty andb]; intros L N; try lia; try discriminate.
  cbn [concat app]. destruct x as [[| |]| | | | | |]; destruct l; reflexivity.
Qed.
Lemma concat_nonempty (ls : list (list item)) : ls <> [] -> forallb nonempty ls = true -> concat ls <> [].
Proof. destruct ls as [|[|] ls]; intros N F; try contradiction; discriminate. Qed.
Definition good_piece (b i : bool) (t : tree) : Prop :=
  exists l, piece_of b i t = Some (Items l) /\ l <> [] /\ (base_ok t -> 1 < length (t_children t) \/ existsb scripted l = false).
Lemma good_list b i ch : Forall (good_piece b i) ch ->
  exists ls, oseq (map (piece_of b i) ch) = Some (map Items ls) /\ forallb nonempty ls = true /\ length ls = length ch.
Proof.
  induction 1 as [|c ch (l & E & N & _) F (ls & E' & N' & L)]; [exists []; auto|]. exists (l :: ls). split; [|split].
  - cbn [map oseq obind]. rewrite E, E'. reflexivity.
  - cbn. destruct l; [contradiction|exact N'].
  - cbn. rewrite L. reflexivity.
Qed.
Lemma good_parts b i ch : Forall (good_piece b i) ch -> exists ls, oseq (map (fun c => obind (piece_of b i c) formula) ch) = Some ls.
Proof.
  induction 1 as [|c ch (l & E & N & _) F (ls & E')]; [exists []; reflexivity|]. exists (l :: ls).
  cbn [map oseq]. rewrite E. cbn [obind formula]. rewrite E'. reflexivity.
Qed.
Lemma formulas_items ls : oseq (map formula (map Items ls)) = Some ls.
Proof. induction ls as [|l ls IH]; [reflexivity|]. cbn [map oseq formula obind]. rewrite IH. reflexivity. Qed.
Lemma good_row b i ch : ch <> [] -> Forall (good_piece b i) ch ->
  exists l, obind (oseq (map (piece_of b i) ch)) (in_row (@concat item)) = Some (Items l) /\ l <> [].
Proof.
  intros NE F. destruct (good_list b i ch F) as (ls & E & N & L). rewrite E. cbn [obind]. exists (concat ls).
  assert (Q : concat ls <> []) by (apply concat_nonempty; [destruct ls, ch; try discriminate; contradiction|exact N]).
  split; [|exact Q]. destruct ls as [|l [|l' ls]].
  - reflexivity.
  - cbn. rewrite app_nil_r. reflexivity.
  - unfold in_row. change (map Items (l :: l' :: ls)) with (Items l :: Items l' :: map Items ls).
    change (Items l :: Items l' :: map Items ls) with (map Items (l :: l' :: ls)). rewrite formulas_items. cbn [obind]. rewrite concat_long; [reflexivity|cbn; lia|exact N].
Qed.
Lemma table_tag n : is_table n = true <-> tag_of n = TagTable.
Proof.
  unfold is_table. split; [intros E; apply str_eqb_eq in E; subst; reflexivity|].
  unfold tag_of, known_tags. cbn [tag_lookup]. repeat match goal with |- context [if ?e then _ else _] => destruct e eqn:?; try discriminate end.
  reflexivity.
Qed.
Lemma inside_same inside n : tag_of n <> TagTable -> inside || is_table n = inside.
Proof. intros N. destruct (is_table n) eqn:E; [apply table_tag in E; contradiction|]. apply orb_false_r. Qed.
Definition line_row (b i : bool) (c : tree) : option (list (list item)) :=
  obind (piece_of b i c) (fun p => match p with Cells [r] => Some r | Cells _ => None | Items l => Some [l] end).
Lemma ordinary_pieces t :
  (forall b i, ordinary b i t -> good_piece b i t)
  /\ (forall b i, ordinary_table b i t -> exists rs, oseq (map (line_row b true) (t_children t)) = Some rs)
  /\ (forall b, ordinary_line b t -> exists r, piece_of b true t = Some (Cells [r])).
Proof.
  induction t as [n v ch a IH] using tree_ind'.
  assert (IHo : forall b i l, incl l ch -> Forall (ordinary b i) l -> Forall (good_piece b i) l).
  { intros b i l I F. rewrite Forall_forall in *. intros c Ic. apply (IH c (I c Ic)). apply F. exact Ic. }
  assert (IH1 : forall b i c, In c ch -> ordinary b i c -> good_piece b i c).
  { intros b i c I. apply (proj1 (Forall_forall _ _) IH c I). }
  split; [|split].
  - intros b i O. unfold good_piece. cbn [piece_of t_children]. change (str_eqb n (lit "mtable")) with (is_table n).
    inversion O; subst; cbn [t_name t_children base_ok] in *.
    + (* token *)
      match goal with H : token_latex _ _ _ = Some _ |- _ => unfold token_latex in *; destruct (tag_of n) eqn:TG; try discriminate; injection H as <- end;
        exists l; cbn [obind]; (match goal with H : token_formula _ _ = _ |- _ => rewrite H end); cbn [obind]; auto.
    + (* row *)
      match goal with H : ch <> [] |- _ => rename H into NE end. match goal with H : Forall _ ch |- _ => apply IHo in H; [rename H into F|apply incl_refl] end.
      match goal with H : _ \/ _ |- _ => rename H into TG end. destruct (good_row b i ch NE F) as (l & E & N). exists l.
      rewrite inside_same by (destruct TG as [TG|TG]; rewrite TG; discriminate). split; [destruct TG as [TG|TG]; rewrite TG; exact E|]. split; [exact N|].
      intros B. left. apply B. cbn. destruct TG; auto.
    + (* msqrt, merror *)
      match goal with H : ch <> [] |- _ => rename H into NE end. match goal with H : Forall _ ch |- _ => apply IHo in H; [rename H into F|apply incl_refl] end.
      match goal with H : In (tag_of n) _ |- _ => rename H into TG end. destruct (good_row false i ch NE F) as (l & E & N).
      rewrite inside_same by (destruct TG as [TG|[TG|[]]]; rewrite <- TG; discriminate).
      destruct TG as [TG|[TG|[]]]; rewrite <- TG; rewrite E; cbn [obind formula]; eexists; (split; [reflexivity|]); (split; [discriminate|]); intros _; right; reflexivity.
    + (* menclose *)
      match goal with H : ch <> [] |- _ => rename H into NE end. match goal with H : Forall _ ch |- _ => apply IHo in H; [rename H into F|apply incl_refl] end.
      match goal with H : tag_of n = _ |- _ => rename H into TG end. destruct (good_row false i ch NE F) as (l & E & N).
      rewrite inside_same by (rewrite TG; discriminate). rewrite TG, E. cbn [obind formula].
      destruct (notation_shown (dget_or a (lit "notation") (lit "longdiv")) l) as (j & J & S); [assumption|]. rewrite J. cbn [obind].
      eexists. split; [reflexivity|]. split; [discriminate|]. intros _. right. cbn. rewrite S. reflexivity.
    + (* mfrac *)
      match goal with H : tag_of n = _ |- _ => rename H into TG end. rewrite inside_same by (rewrite TG; discriminate). rewrite TG.
      match goal with H : truthy _ = _ |- _ => rewrite H end.
      destruct (IH1 false i x) as (lx & Ex & Nx & _); [cbn; auto|assumption|]. destruct (IH1 false i y) as (ly & Ey & Ny & _); [cbn; auto|assumption|].
      rewrite Ex, Ey. cbn [obind formula]. eexists. split; [reflexivity|]. split; [discriminate|]. intros _. left. cbn. lia.
    + match goal with H : tag_of n = _ |- _ => rename H into TG end. rewrite inside_same by (rewrite TG; discriminate). rewrite TG.
      match goal with H : truthy _ = _ |- _ => rewrite H end.
      destruct (IH1 b i x) as (lx & Ex & Nx & _); [cbn; auto|assumption|]. destruct (IH1 b i y) as (ly & Ey & Ny & _); [cbn; auto|assumption|].
      rewrite Ex, Ey. cbn [obind formula]. eexists. split; [reflexivity|]. split; [destruct (parens_if_long lx); discriminate|]. intros _. left. cbn. lia.
    + (* mroot *)
      match goal with H : tag_of n = _ |- _ => rename H into TG end. rewrite inside_same by (rewrite TG; discriminate). rewrite TG.
      destruct (IH1 false i x) as (lx & Ex & Nx & _); [cbn; auto|assumption|]. destruct (IH1 true i y) as (ly & Ey & Ny & _); [cbn; auto|assumption|].
      rewrite Ex, Ey. cbn [obind formula]. eexists. split; [reflexivity|]. split; [discriminate|]. intros _. left. cbn. lia.
    + (* msup, msub *)
      match goal with H : In (tag_of n) _ |- _ => rename H into TG end. rewrite inside_same by (destruct TG as [TG|[TG|[]]]; rewrite <- TG; discriminate).
      destruct (IH1 b i b0) as (lb & Eb & Nb & Sb); [cbn; auto|assumption|]. destruct (IH1 false i x) as (lx & Ex & Nx & _); [cbn; auto|assumption|].
      cbn [map oseq]. rewrite Eb, Ex. cbn [obind formula].
      set (base := if Nat.ltb 1 (length (t_children b0)) then parens_if_long lb else lb).
      assert (K : base <> [] /\ existsb scripted base = false).
      { unfold base. destruct (Nat.ltb_spec 1 (length (t_children b0))) as [L|L]; [apply parens_unscripted; exact Nb|]. split; [exact Nb|].
        destruct Sb as [Sb|Sb]; [assumption|lia|exact Sb]. }
      destruct K as [K1 K2]. destruct TG as [TG|[TG|[]]]; rewrite <- TG.
      * destruct (scripts_fit None (Some lx) base K1 K2) as (l' & W & NE). rewrite W. cbn [obind]. exists l'. split; [reflexivity|]. split; [exact NE|]. intros _. left. cbn. lia.
      * destruct (scripts_fit (Some lx) None base K1 K2) as (l' & W & NE). rewrite W. cbn [obind]. exists l'. split; [reflexivity|]. split; [exact NE|]. intros _. left. cbn. lia.
    + (* msubsup *)
      match goal with H : tag_of n = _ |- _ => rename H into TG end. rewrite inside_same by (rewrite TG; discriminate). rewrite TG.
      destruct (IH1 b i b0) as (lb & Eb & Nb & Sb); [cbn; auto|assumption|]. destruct (IH1 false i x) as (lx & Ex & Nx & _); [cbn; auto|assumption|].
      destruct (IH1 false i y) as (ly & Ey & Ny & _); [cbn; auto|assumption|].
      cbn [map oseq]. rewrite Eb, Ex, Ey. cbn [obind formula].
      set (base := if Nat.ltb 1 (length (t_children b0)) then parens_if_long lb else lb).
      assert (K : base <> [] /\ existsb scripted base = false).
      { unfold base. destruct (Nat.ltb_spec 1 (length (t_children b0))) as [L|L]; [apply parens_unscripted; exact Nb|]. split; [exact Nb|].
        destruct Sb as [Sb|Sb]; [assumption|lia|exact Sb]. }
      destruct K as [K1 K2]. destruct (scripts_fit (Some lx) (Some ly) base K1 K2) as (l' & W & NE). rewrite W. cbn [obind]. exists l'.
      split; [reflexivity|]. split; [exact NE|]. intros _. left. cbn. lia.
    + (* munderover *)
      match goal with H : tag_of n = _ |- _ => rename H into TG end. rewrite inside_same by (rewrite TG; discriminate). rewrite TG.
      destruct (IH1 b i b0) as (lb & Eb & Nb & Sb); [cbn; auto|assumption|]. destruct (IH1 false i x) as (lx & Ex & Nx & _); [cbn; auto|assumption|].
      destruct (IH1 false i y) as (ly & Ey & Ny & _); [cbn; auto|assumption|]. rewrite Eb, Ex, Ey. cbn [obind formula].
      match goal with H : t_children b0 = [] |- _ => rewrite H in * end. match goal with H : is_token_tag _ |- _ => rename H into KT end.
      cbn [length Nat.eqb]. rewrite orb_true_r. destruct Sb as [Sb|Sb].
      { unfold base_ok. intros Q. exfalso. unfold is_token_tag in KT. destruct Q as [Q|Q]; rewrite Q in KT; cbn in KT; intuition discriminate. }
      { cbn in Sb. lia. }
      destruct (scripts_fit (Some lx) (Some ly) lb Nb Sb) as (l' & W & NE). rewrite W. cbn [obind]. exists l'.
      split; [reflexivity|]. split; [exact NE|]. intros _. left. cbn. lia.
    + (* munder, mover *)
      match goal with H : In (tag_of n) _ |- _ => rename H into TG end. rewrite inside_same by (destruct TG as [TG|[TG|[]]]; rewrite <- TG; discriminate).
      destruct (IH1 false i x) as (lx & Ex & Nx & _); [cbn; auto|assumption|]. destruct (IH1 false i y) as (ly & Ey & Ny & _); [cbn; auto|assumption|].
      rewrite Ex, Ey. cbn [obind formula]. destruct TG as [TG|[TG|[]]]; rewrite <- TG; (destruct (accent_of y); eexists; (split; [reflexivity|]); (split; [discriminate|]); intros _; left; cbn; lia).
    + match goal with H : In (tag_of n) _ |- _ => rename H into TG end. rewrite inside_same by (destruct TG as [TG|[TG|[]]]; rewrite <- TG; discriminate).
      destruct (IH1 false i x) as (lx & Ex & Nx & _); [cbn; auto|assumption|]. match goal with H : accent_of y = _ |- _ => rewrite H end.
      rewrite Ex. cbn [obind formula]. destruct TG as [TG|[TG|[]]]; rewrite <- TG; eexists; (split; [reflexivity|]); (split; [discriminate|]); intros _; left; cbn; lia.
    + (* mfenced *)
      match goal with H : tag_of n = _ |- _ => rename H into TG end. rewrite inside_same by (rewrite TG; discriminate). rewrite TG.
      match goal with H : existsb has_table ch = _ |- _ => rewrite H end.
      destruct (fence_token b (default (attr a "open") "(")); [|contradiction]. destruct (fence_token b (default (attr a "close") ")")); [|contradiction].
      cbn [obind]. match goal with H : forallb separator_ok _ = _ |- _ => rewrite H end.
      match goal with H : Forall _ ch |- _ => apply IHo in H; [rename H into F|apply incl_refl] end.
      destruct (good_parts b i ch F) as (ls & E). rewrite E. cbn [obind]. eexists. split; [reflexivity|]. split; [discriminate|]. intros _. right. reflexivity.
    + (* a table in fences *)
      match goal with H : tag_of n = _ |- _ => rename H into TG end. rewrite inside_same by (rewrite TG; discriminate). rewrite TG.
      cbn [existsb]. match goal with H : has_table c = _ |- _ => rewrite H end. cbn [orb].
      assert (P : exists p, piece_of b i c = Some p).
      { match goal with H : ordinary b i c \/ _ |- _ => destruct H as [OC|OC] end.
        - destruct (IH1 b i c) as (l & E & _); [cbn; auto|assumption|]. eauto.
        - inversion IH as [|? ? Ic _]; subst. destruct Ic as (_ & Ic & _). destruct (Ic b i OC) as (rs & E). inversion OC; subst.
          cbn [t_children piece_of] in *. match goal with Q : tag_of _ = TagTable |- _ => rename Q into TT; rewrite TT end.
          change (str_eqb n0 (lit "mtable")) with (is_table n0). rewrite (proj2 (table_tag n0) TT), orb_true_r. unfold line_row in E. rewrite E. cbn [obind].
          destruct (i || truthy (attr a0 "innerTable")); eauto. }
      destruct P as [p P]. rewrite P. cbn [obind].
      destruct (String.eqb _ _) eqn:Q.
      * apply String.eqb_eq in Q. match goal with H : _ \/ (_ /\ _) |- _ => destruct H as [H|[H1 H2]]; [contradiction|] end.
        destruct (fence_token b (attr a "open")); [|contradiction]. destruct (fence_token b (attr a "close")); [|contradiction].
        cbn [obind]. eexists. split; [reflexivity|]. split; [discriminate|]. intros _. right. reflexivity.
      * eexists. split; [reflexivity|]. split; [discriminate|]. intros _. right. reflexivity.
    + (* a table in a table *)
      match goal with H : tag_of n = _ |- _ => rename H into TG end. rewrite TG. cbn [orb].
      match goal with H : ordinary_table _ _ _ |- _ => inversion H; subst end.
      assert (E : exists rs, oseq (map (line_row b true) ch) = Some rs).
      { match goal with H : Forall (ordinary_line b) ch |- _ => rename H into F end. clear - F IH. induction F as [|c ch Oc F IHf].
        - exists []. reflexivity.
        - inversion IH as [|? ? Ic IH']; subst. destruct (IHf IH') as (rs & E). destruct Ic as (_ & _ & Ic). destruct (Ic b Oc) as (r & Er).
          exists (r :: rs). cbn [map oseq]. unfold line_row at 1. rewrite Er. cbn [obind]. rewrite E. reflexivity. }
      destruct E as (rs & E). unfold line_row in E. rewrite E. cbn [obind]. eexists. split; [reflexivity|]. split; [discriminate|]. intros _. right. reflexivity.
  - intros b i O. inversion O; subst. cbn [t_children]. match goal with H : Forall (ordinary_line b) ch |- _ => rename H into F end.
    clear - F IH. induction F as [|c ch Oc F IHf].
    + exists []. reflexivity.
    + inversion IH as [|? ? Ic IH']; subst. destruct (IHf IH') as (rs & E). destruct Ic as (_ & _ & Ic). destruct (Ic b Oc) as (r & Er).
      exists (r :: rs). cbn [map oseq]. unfold line_row at 1. rewrite Er. cbn [obind]. rewrite E. reflexivity.
  - intros b O. inversion O; subst. cbn [piece_of]. match goal with H : tag_of n = _ |- _ => rewrite H end. cbn [orb].
    match goal with H : Forall _ ch |- _ => apply IHo in H; [rename H into F|apply incl_refl] end. destruct (good_parts b true ch F) as (ls & E).
    rewrite E. cbn [obind]. eauto.
Qed.
Lemma ordinary_formula t : ordinary false false t -> exists l, formula_of t = Some l /\ l <> [].
Proof. intros O. destruct (proj1 (ordinary_pieces t) false false O) as (l & E & N & _). exists l. unfold formula_of. rewrite E. auto. Qed.

(** ** Formulas *)
Lemma formula_read t l : formula_of t = Some l -> exists s, latex_of t = Ok s /\ tex_reads false s = Some l.
Proof.
  unfold formula_of. intros E. destruct (piece_of false false t) as [[k|]|] eqn:P; try discriminate. cbn in E. injection E as ->.
  destruct (piece_shown t false false _ P) as (s & R & D & _). exists s. rewrite latex_of_render. split; [exact R|apply displays_tex; exact D].
Qed.
Lemma characters_read b s : (forall c, In c s -> is_space c = false /\ ~ In c (lit "\{}$%&#'^_]")) ->
  displays b s (map (fun c => Atom (Chr c)) s).
Proof.
  induction s as [|c s IH]; intros H; [apply displays_nil|].
  assert (K : displays b [c] [Atom (Chr c)] /\ mode None [c] = None).
  { destruct (H c (or_introl eq_refl)) as [S X].
    assert (Y : forall d, In d (lit "\{}$%&#'^_]") -> (c =? d)%N = false) by (intros d I; apply N.eqb_neq; intros ->; contradiction).
    assert (TT : tex_tokens [c] = [Chr c] /\ mode None [c] = None).
    { apply tokens_plain. intros d [<-|[]] ->. apply X. vm_compute. auto. }
    destruct TT as [TT M]. split; [|exact M]. apply displays_reads.
    - split; [rewrite M; discriminate|]. rewrite TT. intros d [I|[]]. discriminate.
    - unfold tex_reads. rewrite TT. cbn [read_tokens]. unfold read_token, read_anything. cbn [current fresh next blank around]. rewrite S.
      rewrite (Y 123%N), (Y 125%N), (Y 94%N), (Y 95%N), (Y 93%N), (Y 38%N) by (vm_compute; auto 20). cbn [andb].
      replace (existsb (N.eqb c) (lit "$%#'")) with false; [reflexivity|].
      symmetry. change (lit "$%#'") with [36; 37; 35; 39]%N. cbn [existsb]. rewrite (Y 36%N), (Y 37%N), (Y 35%N), (Y 39%N) by (vm_compute; auto 20). reflexivity. }
  destruct K as [K M]. apply (displays_join2 b [c] s [Atom (Chr c)]); [exact K| |left; exact M]. apply IH. intros d I. apply H. right. exact I.
Qed.
Lemma number_formula v ch a : v <> [] -> (forall c, In c v -> (c < 128)%N /\ is_space c = false /\ ~ In c (lit "\{}$%&#'^_]")) ->
  formula_of (T (lit "mn") v ch a) = Some (map (fun c => Atom (Chr c)) v).
Proof.
  intros NE H. unfold formula_of. cbn [piece_of]. change (tag_of (lit "mn")) with TagMn. unfold token_latex. change (tag_of (lit "mn")) with TagMn. cbn [obind].
  assert (Q : mn_latex v = v).
  { rewrite mn_ascii by (intros c I; apply H; exact I). unfold squeeze. rewrite words_word_id; [reflexivity|]. split; [exact NE|]. intros c I. apply H. exact I. }
  rewrite Q. assert (D : displays false v (map (fun c => Atom (Chr c)) v)) by (apply characters_read; intros c I; split; apply H; exact I).
  assert (N := D). destruct N as [[_ N] _]. apply displays_tex in D. unfold token_formula. destruct v as [|c v]; [contradiction|].
  replace (forallb _ (tex_tokens (c :: v))) with true.
  2:{ symmetry. apply forallb_forall. intros t I. destruct t as [| |]; auto. rewrite N; auto. }
  rewrite D. cbn [map]. destruct v; cbn [map obind formula]; [rewrite str_eqb_refl|]; reflexivity.
Qed.
Lemma mode_last s : forall m w, mode m s = Some w -> exists ts, tokens_from m s = ts ++ [Word w].
Proof.
  induction s as [|c s IH]; intros m w E.
  - cbn in E. subst. exists []. reflexivity.
  - cbn [mode tokens_from] in *. destruct m as [x|].
    + destruct (ascii_letter c); [apply IH; exact E|]. destruct x as [|d x].
      * destruct (IH _ _ E) as (ts & ->). exists (Sym c :: ts). reflexivity.
      * destruct (c =? backslash)%N; destruct (IH _ _ E) as (ts & ->).
        -- exists (Word (d :: x) :: ts). reflexivity.
        -- exists (Word (d :: x) :: Chr c :: ts). reflexivity.
    + destruct (c =? backslash)%N; [apply IH; exact E|]. destruct (IH _ _ E) as (ts & ->). exists (Chr c :: ts). reflexivity.
Qed.
Lemma closed_mode s : closed_end s -> mode None s = None.
Proof.
  unfold closed_end. intros C. destruct (mode None s) as [w|] eqn:M; [|reflexivity]. apply mode_last in M. destruct M as (ts & E).
  change (tokens_from None s) with (tex_tokens s) in E. rewrite E, rev_app_distr in C. destruct C.
Qed.
Lemma several_read d ls : oseq (map formula_of (math_trees d)) = Some ls ->
  exists ss, converts (math_trees d) ss /\ document_latex d = Ok (concat ss)
             /\ (Forall closed_end ss -> tex_reads false (concat ss) = Some (concat ls)).
Proof.
  unfold document_latex, converts. generalize (math_trees d) as ts. intros ts E. apply oseq_forall in E.
  assert (K : exists ss, Forall2 (fun t s => latex_of t = Ok s) ts ss /\ Forall2 (displays false) ss ls).
  { induction E as [|t l ts ls F E (ss & A & B)]; [exists []; split; constructor|].
    unfold formula_of in F. destruct (piece_of false false t) as [[k|]|] eqn:P; try discriminate. cbn in F. injection F as ->.
    destruct (piece_shown t false false _ P) as (s & R & D & _). exists (s :: ss). split; constructor; auto. rewrite latex_of_render. exact R. }
  destruct K as (ss & A & B). exists ss. split; [exact A|]. split.
  - replace (rseq (map latex_of ts)) with (Ok ss); [reflexivity|]. symmetry. apply rseq_Forall2. apply Forall2_map_l. exact A.
  - intros C. apply displays_tex. clear A E. induction B as [|s l ss ls D B IH]; [apply displays_nil|].
    inversion C; subst. cbn [concat]. apply displays_join2; [exact D|apply IH; assumption|left; apply closed_mode; assumption].
Qed.
