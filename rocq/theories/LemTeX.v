(** TeX tokens of concatenations; nesting. *)
From Coq Require Import String.
From Verif Require Export LemView LemDoc2 SpecTeX.
Local Open Scope string_scope.
Local Open Scope list_scope.

(** ** Tokens of concatenations *)
(** What is read completely, and what is pending afterwards. *)
Fixpoint mode (m : option str) (s : str) : option str :=
  match s with
  | [] => m
  | c :: s' =>
      let start := if (c =? backslash)%N then mode (Some []) s' else mode None s' in
      match m with
      | None => start
      | Some w => if ascii_letter c then mode (Some (w ++ [c])) s' else match w with [] => mode None s' | _ => start end
      end
  end.
Fixpoint done (m : option str) (s : str) : list token :=
  match s with
  | [] => []
  | c :: s' =>
      let start := if (c =? backslash)%N then done (Some []) s' else Chr c :: done None s' in
      match m with
      | None => start
      | Some w => if ascii_letter c then done (Some (w ++ [c])) s'
                  else match w with [] => Sym c :: done None s' | _ => Word w :: start end
      end
  end.
Definition flush (m : option str) : list token := match m with Some w => [Word w] | None => [] end.
Lemma tokens_from_app a b : forall m, tokens_from m (a ++ b) = done m a ++ tokens_from (mode m a) b.
Proof.
  induction a as [|c a IH]; intro m; [reflexivity|]. cbn [app tokens_from done mode].
  destruct m as [w|].
  - destruct (ascii_letter c); [apply IH|]. destruct w as [|x w]; [cbn [app]; rewrite IH; reflexivity|].
    destruct (c =? backslash)%N; cbn [app]; rewrite IH; reflexivity.
  - destruct (c =? backslash)%N; cbn [app]; rewrite IH; reflexivity.
Qed.
Lemma tokens_from_done s m : tokens_from m s = done m s ++ flush (mode m s).
Proof. rewrite <- (app_nil_r s) at 1. rewrite tokens_from_app. f_equal. Qed.
Lemma tokens_done s : tex_tokens s = done None s ++ flush (mode None s).
Proof. apply tokens_from_done. Qed.
Lemma tokens_app_none a b : mode None a = None -> tex_tokens (a ++ b) = tex_tokens a ++ tex_tokens b.
Proof. intro M. unfold tex_tokens at 1. rewrite tokens_from_app, M, (tokens_done a), M. cbn [flush]. rewrite app_nil_r. reflexivity. Qed.
Definition no_letter_first (s : str) : Prop := match s with c :: _ => ascii_letter c = false | [] => True end.
Lemma tokens_pending w b : w <> [] -> no_letter_first b -> tokens_from (Some w) b = Word w :: tex_tokens b.
Proof.
  intros W L. destruct b as [|c b]; [reflexivity|]. cbn in L. cbn [tokens_from]. rewrite L.
  destruct w; [congruence|]. reflexivity.
Qed.
Lemma tokens_app_nonletter a b : mode None a <> Some [] -> no_letter_first b -> tex_tokens (a ++ b) = tex_tokens a ++ tex_tokens b.
Proof.
  intros M L. destruct (mode None a) as [w|] eqn:E; [|apply tokens_app_none; auto].
  unfold tex_tokens at 1. rewrite tokens_from_app, E, (tokens_done a), E. cbn [flush].
  rewrite tokens_pending; auto; [|intros ->; auto]. rewrite <- app_assoc. reflexivity.
Qed.
(** The letters at the beginning. *)
Lemma letters_split b : exists l b', b = l ++ b' /\ letters l /\ no_letter_first b'.
Proof.
  induction b as [|c b (l & b' & E & L & H)]; [exists [], []; repeat split; auto; constructor|].
  destruct (ascii_letter c) eqn:A.
  - exists (c :: l), b'. subst b. repeat split; auto. constructor; auto.
  - exists [], (c :: b). repeat split; auto. constructor.
Qed.
Lemma letter_not_backslash c : ascii_letter c = true -> (c =? backslash)%N = false.
Proof. unfold ascii_letter, backslash. intro H. apply N.eqb_neq. intros ->. discriminate. Qed.
Lemma tokens_letters l b : letters l -> tex_tokens (l ++ b) = map Chr l ++ tex_tokens b.
Proof.
  induction 1 as [|c l H L IH]; [reflexivity|]. cbn [app map]. unfold tex_tokens in *. cbn [tokens_from].
  rewrite letter_not_backslash, IH by auto. reflexivity.
Qed.
Lemma tokens_pending_letters l b : letters l -> forall w, tokens_from (Some w) (l ++ b) = tokens_from (Some (w ++ l)) b.
Proof.
  induction 1 as [|c l H L IH]; intro w; [rewrite app_nil_r; reflexivity|]. cbn [app tokens_from]. rewrite H, IH, <- app_assoc. reflexivity.
Qed.
Lemma tokens_glued a w l b : mode None a = Some w -> w <> [] -> letters l -> no_letter_first b ->
  tex_tokens (a ++ l ++ b) = done None a ++ Word (w ++ l) :: tex_tokens b.
Proof.
  intros M W L H. unfold tex_tokens at 1. rewrite tokens_from_app, M, tokens_pending_letters, tokens_pending; auto.
  destruct w; [congruence|discriminate].
Qed.
Lemma mode_app a b : forall m, mode m (a ++ b) = mode (mode m a) b.
Proof.
  induction a as [|c a IH]; intro m; [reflexivity|]. cbn [app mode]. destruct m as [w|].
  - destruct (ascii_letter c); [apply IH|]. destruct w; [apply IH|]. destruct (c =? backslash)%N; apply IH.
  - destruct (c =? backslash)%N; apply IH.
Qed.
Definition no_backslash (s : str) : Prop := forall c, In c s -> c <> backslash.
Lemma tokens_plain s : no_backslash s -> tex_tokens s = map Chr s /\ mode None s = None.
Proof.
  unfold tex_tokens. induction s as [|c s IH]; intro P; [auto|]. cbn [tokens_from mode map].
  destruct (N.eqb_spec c backslash) as [E|_]; [exfalso; apply (P c); cbn; auto|].
  destruct IH as [-> ->]; auto. intros x I. apply P. cbn. auto.
Qed.

(** ** Nesting *)
Lemma nested_app f a b : nested f a -> nested f b -> nested f (a ++ b).
Proof.
  intros A B. induction A as [|t l O A IH|x l A1 IH1 A2 IH2|name x l L A1 IH1 A2 IH2|d1 x d2 l F D1 D2 A1 IH1 A2 IH2]; auto.
  - cbn [app]. constructor; auto.
  - cbn [app]. rewrite <- app_assoc. cbn [app]. apply nested_braces; auto.
  - cbn [app]. rewrite <- !app_assoc. cbn [app]. rewrite <- !app_assoc. apply nested_env; auto.
  - cbn [app]. rewrite <- app_assoc. cbn [app]. apply nested_fences; auto.
Qed.
Lemma nested_tail f t b : nested f (t :: b) -> ordinary f t = true -> nested f b.
Proof.
  intros H O. inversion H; subst; auto.
  - discriminate O.
  - exfalso. destruct f; discriminate O.
  - discriminate O.
Qed.
Lemma letter_ordinary f c : ascii_letter c = true -> ordinary f (Chr c) = true.
Proof.
  intro L. unfold ordinary. apply negb_true_iff, orb_false_iff. unfold ascii_letter in L.
  split; apply N.eqb_neq; intros ->; discriminate.
Qed.
Lemma nested_letters f l b : letters l -> nested f (map Chr l ++ b) -> nested f b.
Proof.
  induction 1 as [|c l H L IH]; auto. cbn [map app]. intro N. apply IH. apply nested_tail in N; auto. apply letter_ordinary; auto.
Qed.
(** Replacing the last token. *)
Lemma last_case {A} (l : list A) : l = [] \/ exists l' x, l = l' ++ [x].
Proof. destruct l as [|a l]; auto. right. destruct (@exists_last _ (a :: l)) as (l' & x & E); [discriminate|]. eauto. Qed.
Lemma app_end {A} (a b : list A) x y : a ++ [x] = b ++ [y] -> a = b /\ x = y.
Proof. apply app_inj_tail. Qed.
Lemma delimiter_word f w : f = true -> delimiter (Word w) = ordinary f (Word w).
Proof. intros ->. unfold delimiter. cbn [blank negb]. apply andb_true_r. Qed.
Lemma nested_last f l : nested f l -> forall ta w, l = ta ++ [Word w] ->
  ordinary f (Word w) = true /\ forall w', ordinary f (Word w') = true -> nested f (ta ++ [Word w']).
Proof.
  intros A. induction A as [|t l O A IH|x l A1 IH1 A2 IH2|name x l L A1 IH1 A2 IH2|d1 x d2 l F D1 D2 A1 IH1 A2 IH2];
    intros ta w E.
  - destruct ta; discriminate.
  - destruct (last_case l) as [->|(l' & y & ->)].
    + change [t] with ([] ++ [t]) in E. apply app_end in E as [<- ->]. split; auto. intros w' O2. cbn. constructor; [auto|constructor].
    + change (t :: l' ++ [y]) with ((t :: l') ++ [y]) in E. apply app_end in E as [<- ->].
      destruct (IH l' w eq_refl) as [O1 R]. split; auto. intros w' O2. cbn [app]. constructor; auto.
  - destruct (last_case l) as [->|(l' & y & ->)].
    + change (Chr open_brace :: x ++ [Chr close_brace]) with ((Chr open_brace :: x) ++ [Chr close_brace]) in E.
      apply app_end in E as [_ E]. discriminate.
    + assert (X : (Chr open_brace :: x ++ Chr close_brace :: l') ++ [y] = ta ++ [Word w]).
      { rewrite <- E. cbn [app]. rewrite <- app_assoc. reflexivity. }
      apply app_end in X as [<- ->]. destruct (IH2 l' w eq_refl) as [O1 R]. split; auto. intros w' O2.
      cbn [app]. rewrite <- app_assoc. cbn [app]. apply nested_braces; auto.
  - destruct (last_case l) as [->|(l' & y & ->)].
    + assert (X : (Word (lit "begin") :: group name ++ x ++ Word (lit "end") :: Chr open_brace :: map Chr name) ++ [Chr close_brace] = ta ++ [Word w]).
      { rewrite <- E. unfold group. cbn [app]. rewrite app_nil_r, <- !app_assoc. cbn [app]. rewrite <- ?app_assoc. reflexivity. }
      apply app_end in X as [_ X]. discriminate.
    + assert (X : (Word (lit "begin") :: group name ++ x ++ Word (lit "end") :: group name ++ l') ++ [y] = ta ++ [Word w]).
      { rewrite <- E. cbn [app]. rewrite <- !app_assoc. cbn [app]. rewrite <- !app_assoc. reflexivity. }
      apply app_end in X as [<- ->]. destruct (IH2 l' w eq_refl) as [O1 R]. split; auto. intros w' O2.
      cbn [app]. rewrite <- !app_assoc. cbn [app]. rewrite <- !app_assoc. apply nested_env; auto.
  - destruct (last_case l) as [->|(l' & y & ->)].
    + assert (X : (Word (lit "left") :: d1 :: x ++ [Word (lit "right")]) ++ [d2] = ta ++ [Word w]).
      { rewrite <- E. cbn [app]. rewrite <- app_assoc. reflexivity. }
      apply app_end in X as [<- ->]. rewrite (delimiter_word f) in D2 by auto. split; auto. intros w' O2.
      cbn [app]. rewrite <- app_assoc. cbn [app].
      apply nested_fences; auto; try constructor. rewrite (delimiter_word f); auto.
    + assert (X : (Word (lit "left") :: d1 :: x ++ Word (lit "right") :: d2 :: l') ++ [y] = ta ++ [Word w]).
      { rewrite <- E. cbn [app]. rewrite <- app_assoc. reflexivity. }
      apply app_end in X as [<- ->]. destruct (IH2 l' w eq_refl) as [O1 R]. split; auto. intros w' O2.
      cbn [app]. rewrite <- app_assoc. cbn [app]. apply nested_fences; auto.
Qed.

(** ** Good texts: nested, ended so that letters may follow, no escaped whitespace *)
Fixpoint prefix_of (w k : str) : bool :=
  match w, k with
  | [], _ => true
  | _, [] => false
  | c :: w', d :: k' => (c =? d)%N && prefix_of w' k'
  end.
Definition safe_word (f : bool) (w : str) : bool := forallb (fun k => negb (prefix_of w k)) (special_words f).
Lemma prefix_of_app w l k : prefix_of (w ++ l) k = true -> prefix_of w k = true.
Proof.
  revert k. induction w as [|c w IH]; intros [|d k]; auto; cbn; try discriminate.
  intro H. apply andb_true_iff in H as [-> H]. cbn. auto.
Qed.
Lemma safe_word_app f w l : safe_word f w = true -> safe_word f (w ++ l) = true.
Proof.
  unfold safe_word. rewrite !forallb_forall. intros H k I. specialize (H k I). apply negb_true_iff in H. apply negb_true_iff.
  destruct (prefix_of (w ++ l) k) eqn:E; auto. apply prefix_of_app in E. congruence.
Qed.
Lemma prefix_refl w : prefix_of w w = true.
Proof. induction w; cbn; auto. rewrite N.eqb_refl. auto. Qed.
Lemma safe_ordinary f w : safe_word f w = true -> ordinary f (Word w) = true.
Proof.
  unfold safe_word. rewrite forallb_forall. intro H. unfold ordinary. destruct (str_in w (special_words f)) eqn:E; auto.
  apply str_in_spec in E. apply H in E. rewrite prefix_refl in E. discriminate.
Qed.
Lemma safe_nonempty f w : safe_word f w = true -> w <> [].
Proof. intros H ->. destruct f; discriminate. Qed.

Definition safe_mode (f : bool) (m : option str) : Prop := match m with Some w => safe_word f w = true | None => True end.
Definition no_escaped_space (ts : list token) : Prop := forall c, In (Sym c) ts -> is_space c = false.
Definition sound_words (f : bool) (ts : list token) : Prop :=
  forall w, In (Word w) ts -> ordinary f (Word w) = true -> safe_word f w = true.
Definition good (f : bool) (s : str) : Prop :=
  nested f (tex_tokens s) /\ sound_words f (tex_tokens s) /\ no_escaped_space (tex_tokens s).
Lemma good_safe f s : good f s -> safe_mode f (mode None s).
Proof.
  intros (N & W & _). rewrite tokens_done in N, W. destruct (mode None s) as [w|]; [|exact I]. cbn [flush safe_mode] in *.
  apply W; [apply in_or_app; right; cbn; auto|]. eapply nested_last; eauto.
Qed.
Lemma good_mode f s : good f s -> mode None s <> Some [].
Proof. intros G E. apply good_safe in G. rewrite E in G. apply safe_nonempty in G. auto. Qed.
Lemma sound_app f a b : sound_words f a -> sound_words f b -> sound_words f (a ++ b).
Proof. intros A B w I. apply in_app_or in I as [I|I]; auto. Qed.
Lemma sound_cons f t a : (forall w, t = Word w -> ordinary f (Word w) = true -> safe_word f w = true) -> sound_words f a -> sound_words f (t :: a).
Proof. intros T A w [I|I]; auto. Qed.
Lemma sound_chars f s : sound_words f (map Chr s).
Proof. intros w I. apply in_map_iff in I as (x & E & _). discriminate. Qed.
Lemma escaped_chars s : no_escaped_space (map Chr s).
Proof. intros w I. apply in_map_iff in I as (x & E & _). discriminate. Qed.
Lemma good_nil f : good f [].
Proof. split; [constructor|]. split; intros c []. Qed.
Lemma no_escaped_app a b : no_escaped_space a -> no_escaped_space b -> no_escaped_space (a ++ b).
Proof. intros A B c I. apply in_app_or in I as [I|I]; auto. Qed.
Lemma mode_pending_cons w c b : w <> [] -> ascii_letter c = false -> mode (Some w) (c :: b) = mode None (c :: b).
Proof. intros W L. cbn [mode]. rewrite L. destruct w; [congruence|]. reflexivity. Qed.
Lemma mode_letters l b : letters l -> forall w, mode (Some w) (l ++ b) = mode (Some (w ++ l)) b.
Proof.
  induction 1 as [|c l H L IH]; intro w; [rewrite app_nil_r; reflexivity|]. cbn [app mode]. rewrite H, IH, <- app_assoc. reflexivity.
Qed.
Lemma mode_letters_none l b : letters l -> mode None (l ++ b) = mode None b.
Proof. induction 1 as [|c l H L IH]; auto. cbn [app mode]. rewrite letter_not_backslash; auto. Qed.
Lemma good_app f a b : good f a -> good f b -> good f (a ++ b).
Proof.
  intros GA (B & WB & SB). pose proof (good_safe f a GA) as MA. destruct GA as (A & WA & SA). destruct (mode None a) as [w|] eqn:M.
  2: { unfold good. rewrite tokens_app_none by auto. split; [apply nested_app; auto|]. split; [apply sound_app; auto|apply no_escaped_app; auto]. }
  cbn [safe_mode] in MA. pose proof (safe_nonempty f w MA) as W.
  destruct (letters_split b) as (l & b' & E & L & H).
  assert (T : tex_tokens (a ++ b) = done None a ++ Word (w ++ l) :: tex_tokens b') by (subst b; apply tokens_glued; auto).
  assert (TA : tex_tokens a = done None a ++ [Word w]) by (rewrite tokens_done, M; auto).
  assert (TB : tex_tokens b = map Chr l ++ tex_tokens b') by (subst b; apply tokens_letters; auto).
  split; [|split].
  - rewrite T. change (Word (w ++ l) :: tex_tokens b') with ([Word (w ++ l)] ++ tex_tokens b'). rewrite app_assoc. apply nested_app.
    + apply (nested_last f _ A (done None a) w); auto. apply safe_ordinary. apply safe_word_app; auto.
    + rewrite TB in B. apply nested_letters in B; auto.
  - rewrite T. apply sound_app; [intros x I; apply WA; rewrite TA; apply in_or_app; auto|].
    apply sound_cons; [intros x [= <-] _; apply safe_word_app; auto|]. intros x I. apply WB. rewrite TB. apply in_or_app. auto.
  - rewrite T. apply no_escaped_app; [intros c I; apply SA; rewrite TA; apply in_or_app; auto|].
    intros c [I|I]; [discriminate|]. apply SB. rewrite TB. apply in_or_app. auto.
Qed.
Lemma good_concat f ss : Forall (good f) ss -> good f (concat ss).
Proof. induction 1; [apply good_nil|]. cbn [concat]. apply good_app; auto. Qed.
Lemma good_join f sep ss : good f sep -> Forall (good f) ss -> good f (join sep ss).
Proof.
  intros S H. induction H as [|s ss G H IH]; [apply good_nil|]. destruct ss as [|s2 ss]; [exact G|].
  change (join sep (s :: s2 :: ss)) with (s ++ sep ++ join sep (s2 :: ss)). repeat apply good_app; auto.
Qed.
Lemma good_plain f s : plain s -> good f s.
Proof.
  intro P. destruct (tokens_plain s) as [T M]; [intros c I; apply P; auto|]. split; [|split].
  - rewrite T. clear T M. induction s as [|c s IH]; [constructor|]. cbn [map]. constructor; [|apply IH; intros x I; apply P; cbn; auto].
    destruct (P c) as (_ & X & Y); [cbn; auto|]. cbn. apply negb_true_iff, orb_false_iff. split; apply N.eqb_neq; auto.
  - rewrite T. apply sound_chars.
  - rewrite T. apply escaped_chars.
Qed.
Lemma tokens_braced s : mode None s <> Some [] -> tex_tokens (braced s) = Chr open_brace :: tex_tokens s ++ [Chr close_brace].
Proof.
  intro M. unfold braced. change (lit "{") with [open_brace]. change (lit "}") with [close_brace].
  rewrite tokens_app_none by reflexivity. rewrite tokens_app_nonletter by (auto; reflexivity). reflexivity.
Qed.
Lemma good_braced f s : good f s -> good f (braced s).
Proof.
  intros G. pose proof (good_mode f s G) as M. destruct G as (A & W & S). unfold good. rewrite tokens_braced by auto. split; [|split].
  - apply nested_braces; [auto|constructor].
  - apply sound_cons; [discriminate|]. apply sound_app; auto. apply (sound_chars f [close_brace]).
  - intros c [I|I]; [discriminate|]. apply in_app_or in I as [I|[I|[]]]; auto; discriminate.
Qed.

(** A checker for constant texts. *)
Definition lonely (f : bool) (s : str) : bool :=
  forallb (ordinary f) (tex_tokens s)
  && forallb (fun t => match t with Word w => safe_word f w | Sym c => negb (is_space c) | _ => true end) (tex_tokens s).
Lemma lonely_good f s : lonely f s = true -> good f s.
Proof.
  unfold lonely. rewrite !andb_true_iff. intros [A S]. rewrite forallb_forall in S. split; [|split].
  - rewrite forallb_forall in A. revert A. clear. induction (tex_tokens s) as [|t l IH]; intro A; constructor; [apply A; cbn; auto|].
    apply IH. intros x I. apply A. cbn. auto.
  - intros w I _. apply (S _ I).
  - intros c I. apply S in I. apply negb_true_iff in I. auto.
Qed.
Lemma good_command f c s : lonely f (lit c) = true -> good f s -> good f (lit c ++ braced s).
Proof. intros L G. apply good_app; [apply lonely_good; auto|apply good_braced; auto]. Qed.

(** Fences and environments. *)
Lemma tokens_right s rest : mode None s <> Some [] -> no_letter_first rest ->
  tex_tokens (s ++ lit "\right" ++ rest) = tex_tokens s ++ Word (lit "right") :: tex_tokens rest.
Proof.
  intros M L. rewrite tokens_app_nonletter by (auto; reflexivity). f_equal.
  rewrite tokens_app_nonletter; auto. discriminate.
Qed.
Lemma tokens_left s : no_letter_first s -> tex_tokens (lit "\left" ++ s) = Word (lit "left") :: tex_tokens s.
Proof. intro L. rewrite tokens_app_nonletter; auto. discriminate. Qed.
Lemma plain_app a b : plain a -> plain b -> plain (a ++ b).
Proof. intros A B c I. apply in_app_or in I as [I|I]; auto. Qed.
Lemma plain_tl c s : plain (c :: s) -> plain s.
Proof. intros P x I. apply P. cbn. auto. Qed.
Lemma good_fenced op s cl : plain op -> plain cl -> op <> [] -> cl <> [] -> good_fence op -> good_fence cl -> good true s ->
  good true (lit "\left" ++ op ++ s ++ lit "\right" ++ cl).
Proof.
  intros P1 P2 N1 N2 G1 G2 G. pose proof (good_mode true s G) as M. destruct G as (A & W & S).
  destruct op as [|c1 op]; [congruence|]. destruct cl as [|c2 cl]; [congruence|].
  destruct (G1 _ _ eq_refl) as [L1 B1]. destruct (G2 _ _ eq_refl) as [L2 B2].
  destruct (tokens_plain (c1 :: op)) as [T1 M1]; [intros c I; apply P1; auto|].
  destruct (tokens_plain (c2 :: cl)) as [T2 M2]; [intros c I; apply P2; auto|].
  assert (D : forall c s', plain (c :: s') -> is_space c = false -> delimiter (Chr c) = true).
  { intros c s' P B. destruct (P c) as (_ & X & Y); [cbn; auto|]. unfold delimiter, blank. rewrite B.
    cbn. rewrite andb_true_r. apply negb_true_iff, orb_false_iff. split; apply N.eqb_neq; auto. }
  assert (E : tex_tokens (lit "\left" ++ (c1 :: op) ++ s ++ lit "\right" ++ c2 :: cl)
    = Word (lit "left") :: Chr c1 :: (map Chr op ++ tex_tokens s) ++ Word (lit "right") :: Chr c2 :: map Chr cl).
  { rewrite tokens_left by auto. rewrite tokens_app_none by auto. rewrite T1.
    rewrite tokens_right by auto. rewrite T2. cbn [map app]. rewrite <- app_assoc. reflexivity. }
  assert (NP : forall s', plain s' -> nested true (map Chr s')).
  { intros s' P. destruct (tokens_plain s') as [T _]; [intros c I; apply P; auto|]. rewrite <- T. apply good_plain. auto. }
  split; [|split].
  - rewrite E. apply nested_fences; eauto; [apply nested_app; auto|]; apply NP; eapply plain_tl; eauto.
  - rewrite E. apply sound_cons; [intros w [= <-]; discriminate|]. apply sound_cons; [discriminate|].
    apply sound_app; [apply sound_app; auto; apply sound_chars|]. apply sound_cons; [intros w [= <-]; discriminate|].
    apply (sound_chars true (c2 :: cl)).
  - rewrite E. intros c [I|[I|I]]; try discriminate. apply in_app_or in I as [I|[I|[I|I]]]; try discriminate.
    + apply in_app_or in I as [I|I]; auto. apply in_map_iff in I as (x & X & _). discriminate.
    + apply in_map_iff in I as (x & X & _). discriminate.
Qed.
Lemma good_left_paren f s : good f s -> good f (lit "\left(" ++ s ++ lit "\right)").
Proof.
  intro G. change (lit "\left(") with (lit "\left" ++ lit "("). change (lit "\right)") with (lit "\right" ++ lit ")").
  destruct f.
  - rewrite <- app_assoc. apply good_fenced; auto; try discriminate.
    + intros c [<-|[]]. repeat split; discriminate.
    + intros c [<-|[]]. repeat split; discriminate.
    + intros c s' [= <- <-]. auto.
    + intros c s' [= <- <-]. auto.
  - repeat apply good_app; auto; apply lonely_good; reflexivity.
Qed.
Lemma good_env f name s : letters (lit name) -> good f s -> good f (env name s).
Proof.
  intros L G. pose proof (good_mode f s G) as M. destruct G as (A & W & S). unfold env.
  assert (NB : no_backslash (lit name)).
  { intros c I. apply (proj1 (Forall_forall _ _) L) in I. apply letter_not_backslash, N.eqb_neq in I. auto. }
  destruct (tokens_plain (lit name) NB) as [TN MN].
  assert (C : forall r, tex_tokens (lit name ++ lit "}" ++ r) = map Chr (lit name) ++ Chr close_brace :: tex_tokens r).
  { intro r. rewrite tokens_app_none, TN, tokens_app_none by auto. reflexivity. }
  assert (E : tex_tokens (lit "\begin{" ++ lit name ++ lit "}" ++ s ++ lit "\end{" ++ lit name ++ lit "}")
    = Word (lit "begin") :: group (lit name) ++ tex_tokens s ++ Word (lit "end") :: group (lit name) ++ []).
  { rewrite tokens_app_none by reflexivity. rewrite C. rewrite tokens_app_nonletter by (auto; reflexivity).
    rewrite (tokens_app_none (lit "\end{")) by reflexivity.
    replace (lit name ++ lit "}") with (lit name ++ lit "}" ++ []) by (rewrite app_nil_r; reflexivity). rewrite C.
    unfold group. change (tex_tokens (lit "\begin{")) with [Word (lit "begin"); Chr open_brace].
    change (tex_tokens (lit "\end{")) with [Word (lit "end"); Chr open_brace]. cbn [app]. rewrite <- !app_assoc. reflexivity. }
  split; [|split].
  - rewrite E. apply nested_env; auto. constructor.
  - assert (SG : sound_words f (group (lit name))).
    { unfold group. apply sound_cons; [discriminate|]. apply sound_app; [apply sound_chars|apply (sound_chars f [close_brace])]. }
    rewrite E. apply sound_cons; [intros w [= <-]; destruct f; discriminate|]. apply sound_app; auto. apply sound_app; auto.
    apply sound_cons; [intros w [= <-]; destruct f; discriminate|]. rewrite app_nil_r. auto.
  - rewrite E. intros c [I|I]; [discriminate|].
    assert (NG : ~ In (Sym c) (group (lit name))).
    { intros [J|J]; [discriminate|]. apply in_app_or in J as [J|[J|[]]]; [|discriminate]. apply in_map_iff in J as (x & X & _). discriminate. }
    apply in_app_or in I as [I|I]; [contradiction|]. apply in_app_or in I as [I|[I|I]]; auto; [discriminate|].
    rewrite app_nil_r in I. contradiction.
Qed.

(** ** A checker for constants with groups and fences *)
Inductive frame : Type := FBrace | FFence.
Fixpoint check (f : bool) (stk : list frame) (ts : list token) : bool :=
  match ts with
  | [] => match stk with [] => true | _ => false end
  | t :: ts' =>
      if ordinary f t then check f stk ts'
      else match t with
           | Chr c => if (c =? open_brace)%N then check f (FBrace :: stk) ts'
                      else match stk with FBrace :: stk' => check f stk' ts' | _ => false end
           | Word w =>
               f && match ts' with
                    | d :: ts'' =>
                        delimiter d
                        && (if str_eqb w (lit "left") then check f (FFence :: stk) ts''
                            else str_eqb w (lit "right")
                                 && match stk with FFence :: stk' => check f stk' ts'' | _ => false end)
                    | [] => false
                    end
           | Sym _ => false
           end
  end.
Fixpoint closes (f : bool) (stk : list frame) (ts : list token) : Prop :=
  match stk with
  | [] => nested f ts
  | FBrace :: stk' => exists a b, ts = a ++ Chr close_brace :: b /\ nested f a /\ closes f stk' b
  | FFence :: stk' => exists a d b, ts = a ++ Word (lit "right") :: d :: b /\ delimiter d = true /\ nested f a /\ closes f stk' b
  end.
Lemma closes_app f stk a b : nested f a -> closes f stk b -> closes f stk (a ++ b).
Proof.
  destruct stk as [|[] stk]; cbn [closes]; intros A.
  - apply nested_app; auto.
  - intros (x & y & -> & X & Y). exists (a ++ x), y. rewrite <- app_assoc. repeat split; auto. apply nested_app; auto.
  - intros (x & d & y & -> & D & X & Y). exists (a ++ x), d, y. rewrite <- app_assoc. repeat split; auto. apply nested_app; auto.
Qed.
Lemma check_closes f n : forall ts stk, length ts <= n -> check f stk ts = true -> closes f stk ts.
Proof.
  induction n as [|n IH]; intros ts stk L C.
  - destruct ts; [|cbn in L; lia]. destruct stk; [constructor|discriminate].
  - destruct ts as [|t ts]; [destruct stk; [constructor|discriminate]|]. cbn [length] in L. cbn [check] in C.
    destruct (ordinary f t) eqn:O.
    + apply (closes_app f stk [t] ts); [constructor; [auto|constructor]|]. apply IH; auto. lia.
    + destruct t as [w|c|c]; [|discriminate|].
      * apply andb_true_iff in C as [F C]. destruct ts as [|d ts]; [discriminate|]. apply andb_true_iff in C as [D C]. cbn [length] in L.
        destruct (str_eqb w (lit "left")) eqn:E.
        -- apply str_eqb_eq in E. subst w. apply IH in C; [|lia]. cbn [closes] in C. destruct C as (a & d2 & b & -> & D2 & A & B).
           replace (Word (lit "left") :: d :: a ++ Word (lit "right") :: d2 :: b) with
             ((Word (lit "left") :: d :: a ++ Word (lit "right") :: d2 :: []) ++ b) by (cbn [app]; rewrite <- app_assoc; reflexivity).
           apply closes_app; auto. apply nested_fences; auto. constructor.
        -- apply andb_true_iff in C as [E2 C]. apply str_eqb_eq in E2. subst w. destruct stk as [|[] stk]; try discriminate.
           apply IH in C; [|lia]. cbn [closes]. exists [], d, ts. repeat split; auto. constructor.
      * destruct (c =? open_brace)%N eqn:E.
        -- apply N.eqb_eq in E. subst c. apply IH in C; [|lia]. cbn [closes] in C. destruct C as (a & b & -> & A & B).
           replace (Chr open_brace :: a ++ Chr close_brace :: b) with ((Chr open_brace :: a ++ Chr close_brace :: []) ++ b)
             by (cbn [app]; rewrite <- app_assoc; reflexivity).
           apply closes_app; auto. apply nested_braces; auto. constructor.
        -- destruct stk as [|[] stk]; try discriminate. apply IH in C; [|lia]. cbn [ordinary] in O. rewrite E in O. cbn in O.
           apply negb_false_iff, N.eqb_eq in O. subst c. cbn [closes]. exists [], ts. repeat split; auto. constructor.
Qed.
Definition constant_ok (f : bool) (s : str) : bool :=
  check f [] (tex_tokens s)
  && forallb (fun t => match t with Word w => negb (ordinary f t) || safe_word f w | Sym c => negb (is_space c) | _ => true end) (tex_tokens s).
Lemma constant_good f s : constant_ok f s = true -> good f s.
Proof.
  unfold constant_ok. rewrite andb_true_iff, forallb_forall. intros [C S]. split; [|split].
  - apply (check_closes f (length (tex_tokens s)) _ []); auto.
  - intros w I O. apply S in I. rewrite O in I. auto.
  - intros c I. apply S in I. apply negb_true_iff in I. auto.
Qed.

(** ** Whitespace *)
Inductive spaced : list token -> list token -> Prop :=
| spaced_nil : spaced [] []
| spaced_keep t a b : spaced a b -> spaced (t :: a) (t :: b)
| spaced_drop c a b : is_space c = true -> spaced a b -> spaced (Chr c :: a) b
| spaced_one c a b : is_space c = true -> spaced a b -> spaced (Chr c :: a) (Chr 32%N :: b).
Lemma spaced_refl a : spaced a a.
Proof. induction a; constructor; auto. Qed.
Lemma spaced_app_inv a b l : spaced (a ++ b) l -> exists a' b', l = a' ++ b' /\ spaced a a' /\ spaced b b'.
Proof.
  revert l. induction a as [|t a IH]; intros l S.
  - exists [], l. repeat split; auto. constructor.
  - cbn [app] in S. inversion S; subst.
    + apply IH in H2 as (a' & b' & -> & A & B). exists (t :: a'), b'. repeat split; auto. constructor; auto.
    + apply IH in H3 as (a' & b' & -> & A & B). exists a', b'. repeat split; auto. apply spaced_drop; auto.
    + apply IH in H3 as (a' & b' & -> & A & B). exists (Chr 32%N :: a'), b'. repeat split; auto. apply spaced_one; auto.
Qed.
Lemma spaced_solid t a l : blank t = false -> spaced (t :: a) l -> exists l', l = t :: l' /\ spaced a l'.
Proof.
  intros B S. inversion S; subst; eauto; cbn in B; congruence.
Qed.
Lemma spaced_solids g a l : forallb (fun t => negb (blank t)) g = true -> spaced (g ++ a) l -> exists l', l = g ++ l' /\ spaced a l'.
Proof.
  revert l. induction g as [|t g IH]; intros l F S; [exists l; auto|]. cbn [forallb] in F. apply andb_true_iff in F as [F1 F2].
  cbn [app] in S. apply spaced_solid in S as (l' & -> & S); [|apply negb_true_iff; auto].
  apply IH in S as (l2 & -> & S); auto. exists l2. auto.
Qed.
Lemma letter_no_space c : ascii_letter c = true -> is_space c = false.
Proof.
  unfold ascii_letter. intro H. destruct (is_space c) eqn:E; auto. unfold is_space in E. exfalso. revert H E.
  generalize c. clear. intros c H E.
  assert (c <= 122)%N by (apply orb_true_iff in H as [H|H]; apply andb_true_iff in H as [_ H]; apply N.leb_le in H; lia).
  assert (X : forallb (fun c => negb (ascii_letter c && is_space c)) (map N.of_nat (seq 0 123)) = true) by (vm_compute; reflexivity).
  rewrite forallb_forall in X. specialize (X c). rewrite in_map_iff in X.
  assert (Y : negb (ascii_letter c && is_space c) = true).
  { apply X. exists (N.to_nat c). split; [apply N2Nat.id|]. apply in_seq. lia. }
  unfold ascii_letter, is_space in Y. rewrite H, E in Y. discriminate.
Qed.
Lemma group_solid name : letters name -> forallb (fun t => negb (blank t)) (group name) = true.
Proof.
  intro L. unfold group. cbn [forallb blank]. rewrite forallb_app. cbn. rewrite andb_true_r.
  induction L as [|c l H L IH]; [reflexivity|]. cbn. rewrite (letter_no_space c H). exact IH.
Qed.
Lemma nested_spaced f a : nested f a -> forall l, spaced a l -> nested f l.
Proof.
  intro A. induction A as [|t a O A IH|x a A1 IH1 A2 IH2|name x a L A1 IH1 A2 IH2|d1 x d2 a F D1 D2 A1 IH1 A2 IH2]; intros l S.
  - inversion S. constructor.
  - inversion S; subst; auto; constructor; auto.
  - apply spaced_solid in S as (l1 & -> & S); [|reflexivity]. apply spaced_app_inv in S as (x' & y & -> & S1 & S).
    apply spaced_solid in S as (l2 & -> & S); [|reflexivity]. apply nested_braces; auto.
  - apply spaced_solid in S as (l1 & -> & S); [|reflexivity]. apply spaced_solids in S as (l2 & -> & S); [|apply group_solid; auto].
    apply spaced_app_inv in S as (x' & y & -> & S1 & S). apply spaced_solid in S as (l3 & -> & S); [|reflexivity].
    apply spaced_solids in S as (l4 & -> & S); [|apply group_solid; auto]. apply nested_env; auto.
  - assert (D : forall d, delimiter d = true -> blank d = false).
    { intros d D. unfold delimiter in D. apply andb_true_iff in D as [_ D]. apply negb_true_iff. auto. }
    apply spaced_solid in S as (l1 & -> & S); [|reflexivity]. apply spaced_solid in S as (l2 & -> & S); [|auto].
    apply spaced_app_inv in S as (x' & y & -> & S1 & S). apply spaced_solid in S as (l3 & -> & S); [|reflexivity].
    apply spaced_solid in S as (l4 & -> & S); [|auto]. apply nested_fences; auto.
Qed.
Lemma spaced_words a l : spaced a l -> forall t, blank t = false -> In t l -> In t a.
Proof.
  induction 1 as [|t a l S IH|c a l C S IH|c a l C S IH]; intros u B I; auto.
  - destruct I as [I|I]; [left; auto|right; auto].
  - right. auto.
  - destruct I as [I|I]; [subst u; discriminate B|right; auto].
Qed.
Lemma first_word s : exists w r, s = w ++ r /\ no_space w /\ (r = [] \/ exists c s', r = c :: s' /\ is_space c = true).
Proof.
  induction s as [|c s (w & r & E & N & R)].
  - exists [], []. repeat split; auto. intros x [].
  - destruct (is_space c) eqn:C.
    + exists [], (c :: s). repeat split; auto; [intros x []|]. right. eauto.
    + exists (c :: w), r. subst s. repeat split; auto. intros x [<-|I]; auto.
Qed.
Lemma space_no_letter c : is_space c = true -> ascii_letter c = false.
Proof. intro S. destruct (ascii_letter c) eqn:L; auto. apply letter_no_space in L. congruence. Qed.
Lemma space_no_backslash c : is_space c = true -> (c =? backslash)%N = false.
Proof. intro S. apply N.eqb_neq. intros ->. discriminate. Qed.
Lemma tokens_space w c s : is_space c = true -> mode None w <> Some [] -> tex_tokens (w ++ c :: s) = tex_tokens w ++ Chr c :: tex_tokens s.
Proof.
  intros S M. rewrite tokens_app_nonletter; auto; [|apply space_no_letter; auto].
  unfold tex_tokens at 2. cbn [tokens_from]. rewrite space_no_backslash by auto. reflexivity.
Qed.
Lemma spaced_app a a' b b' : spaced a a' -> spaced b b' -> spaced (a ++ b) (a' ++ b').
Proof. induction 1; intro S; auto; cbn [app]; [apply spaced_keep|apply spaced_drop|apply spaced_one]; auto. Qed.
Lemma escaped_mode w c s : is_space c = true -> no_escaped_space (tex_tokens (w ++ c :: s)) -> mode None w <> Some [].
Proof.
  intros S N M. unfold tex_tokens in N. rewrite tokens_from_app, M in N. cbn [tokens_from] in N.
  rewrite space_no_letter in N by auto. specialize (N c). rewrite S in N. discriminate N. apply in_or_app. right. cbn. auto.
Qed.
Lemma tokens_squeeze n : forall s, length s <= n -> no_escaped_space (tex_tokens s) -> spaced (tex_tokens s) (tex_tokens (squeeze s)).
Proof.
  induction n as [|n IH]; intros s L N.
  - destruct s; [constructor|cbn in L; lia].
  - destruct (first_word s) as (w & r & -> & W & [->|(c & s' & -> & C)]).
    + rewrite app_nil_r in *. unfold squeeze. destruct w as [|x w]; [constructor|].
      rewrite words_word_id by (split; [discriminate|auto]). apply spaced_refl.
    + pose proof (escaped_mode w c s' C N) as M. rewrite tokens_space in * by auto.
      assert (IHs : spaced (tex_tokens s') (tex_tokens (squeeze s'))).
      { apply IH; [rewrite app_length in L; cbn in L; lia|]. intros x I. apply N. apply in_or_app. right. cbn. auto. }
      unfold squeeze in *. rewrite words_app_space by auto. destruct w as [|x w].
      * rewrite words_nil. cbn [app]. apply spaced_drop; auto.
      * rewrite words_word_id by (split; [discriminate|auto]). cbn [app]. destruct (words s') as [|w2 l] eqn:E.
        -- assert (X : spaced (tex_tokens (x :: w) ++ Chr c :: tex_tokens s') (tex_tokens (x :: w) ++ [])).
           { apply spaced_app; [apply spaced_refl|]. apply spaced_drop; auto. }
           rewrite app_nil_r in X. exact X.
        -- change (join (lit " ") ((x :: w) :: w2 :: l)) with ((x :: w) ++ 32%N :: join (lit " ") (w2 :: l)).
           rewrite tokens_space by auto. apply spaced_app; [apply spaced_refl|]. apply spaced_one; auto.
Qed.
Lemma good_squeeze f s : good f s -> good f (squeeze s).
Proof.
  intros (N & W & S). pose proof (tokens_squeeze (length s) s (le_n _) S) as Q. split; [|split].
  - eapply nested_spaced; eauto.
  - intros w I. apply W. eapply spaced_words; eauto; reflexivity.
  - intros c I. apply S. eapply spaced_words; eauto; reflexivity.
Qed.

(** ** Tokens of MathML *)
Definition plain_b (s : str) : bool := forallb (fun c => negb ((c =? backslash) || (c =? open_brace) || (c =? close_brace)))%N s.
Lemma plain_spec s : plain s <-> plain_b s = true.
Proof.
  unfold plain, plain_b. rewrite forallb_forall. split; intros H c I; specialize (H c I).
  - destruct H as (A & B & C). apply negb_true_iff, orb_false_iff. rewrite orb_false_iff, !N.eqb_neq. auto.
  - apply negb_true_iff, orb_false_iff in H as [H C]. apply orb_false_iff in H as [A B]. rewrite !N.eqb_neq in *. auto.
Qed.
Lemma plain_squeeze s : plain s -> plain (squeeze s).
Proof. intros P c I. apply squeeze_chars in I as [->|I]; [repeat split; discriminate|auto]. Qed.
Definition entry_ok (kv : str * str) : bool :=
  negb (plain_b (fst kv)) || (constant_ok true (snd kv) && constant_ok false (snd kv)).
Lemma entries_ok d : In d [all_math_symbols_by_char; all_math_symbols_by_glyph; all_math_operators_by_char; all_math_operators_by_glyph; math_number_by_glyph] ->
  forallb entry_ok d = true.
Proof. intros [<-|[<-|[<-|[<-|[<-|[]]]]]]; vm_compute; reflexivity. Qed.
Lemma accents_ok : forallb (fun kv => constant_ok true (accent_or_font (fst kv)) && constant_ok false (accent_or_font (fst kv))) vowels_with_accents = true.
Proof. vm_compute. reflexivity. Qed.
Lemma fonts_ok : forallb (fun kv => constant_ok true (accent_or_font (fst kv)) && constant_ok false (accent_or_font (fst kv))) special_font_chars = true.
Proof. vm_compute. reflexivity. Qed.
Lemma both_good f s : constant_ok true s && constant_ok false s = true -> good f s.
Proof. rewrite andb_true_iff. intros [A B]. apply constant_good. destruct f; auto. Qed.
Lemma accent_good f w : plain w -> good f (accent_or_font w).
Proof.
  intro P. destruct (dget vowels_with_accents w) as [x|] eqn:V.
  - apply both_good. apply dget_In in V. pose proof accents_ok as X. rewrite forallb_forall in X. apply (X _ V).
  - destruct (dget special_font_chars w) as [x|] eqn:S.
    + apply both_good. apply dget_In in S. pose proof fonts_ok as X. rewrite forallb_forall in X. apply (X _ S).
    + unfold accent_or_font. rewrite V, S. apply good_plain. auto.
Qed.
Lemma first_entry_good f ts w s : incl ts [all_math_symbols_by_char; all_math_symbols_by_glyph; all_math_operators_by_char; all_math_operators_by_glyph; math_number_by_glyph] ->
  plain w -> first_entry ts w = Some s -> good f s.
Proof.
  induction ts as [|d ts IH]; intros I P E; [discriminate|]. cbn [first_entry] in E.
  assert (I' : incl ts [all_math_symbols_by_char; all_math_symbols_by_glyph; all_math_operators_by_char; all_math_operators_by_glyph; math_number_by_glyph]) by (intros x X; apply I; cbn; auto).
  destruct (dget d w) as [[|c cs]|] eqn:G; auto. injection E as <-. apply dget_In in G.
  assert (X : forallb entry_ok d = true) by (apply entries_ok, I; cbn; auto). rewrite forallb_forall in X. specialize (X _ G).
  unfold entry_ok in X. cbn [fst snd] in X. apply plain_spec in P. rewrite P in X. cbn [negb orb] in X. apply both_good. auto.
Qed.
Lemma symbol_good f ts w : incl ts [all_math_symbols_by_char; all_math_symbols_by_glyph; all_math_operators_by_char; all_math_operators_by_glyph; math_number_by_glyph] ->
  plain w -> good f (symbol ts w).
Proof.
  intros I P. unfold symbol. destruct (first_entry ts w) as [s|] eqn:E; [eapply first_entry_good; eauto|apply accent_good; auto].
Qed.
Lemma commands_good f cmds s : forallb (fun c => lonely f (lit c)) cmds = true -> good f s -> good f (in_commands cmds s).
Proof.
  intros C G. induction cmds as [|c cmds IH]; auto. cbn [forallb] in C. apply andb_true_iff in C as [C1 C2].
  cbn [in_commands]. apply good_command; auto.
Qed.
Lemma variant_good f l d v : forallb (fun e : string * list string => forallb (fun c => lonely f (lit c)) (snd e)) l = true ->
  forallb (fun c => lonely f (lit c)) d = true -> forallb (fun c => lonely f (lit c)) (variant_lookup l d v) = true.
Proof.
  intros L D. induction l as [|[k c] l IH]; auto. cbn [forallb] in L. apply andb_true_iff in L as [L1 L2].
  cbn [variant_lookup]. destruct (str_eqb v (lit k)); auto.
Qed.
Lemma mi_good f v a : plain v -> good f (mi_latex v a).
Proof.
  intro P. unfold mi_latex. apply commands_good; [apply variant_good; destruct f; vm_compute; reflexivity|].
  apply symbol_good; [intros x I; cbn in *; tauto|apply plain_squeeze; auto].
Qed.
Lemma mo_good f v : plain v -> good f (mo_latex v).
Proof. intro P. apply symbol_good; [intros x I; cbn in *; tauto|apply plain_squeeze; auto]. Qed.
Lemma mn_good f v : plain v -> good f (mn_latex v).
Proof.
  intro P. apply plain_squeeze in P. unfold mn_latex. destruct (first_entry [math_number_by_glyph] (squeeze v)) as [s|] eqn:E; [|apply good_plain; auto].
  eapply first_entry_good in E; eauto. intros x I. cbn in *. tauto.
Qed.
Lemma mtext_good f v a : plain v -> good f (mtext_latex v a).
Proof.
  intro P. unfold mtext_latex. apply good_concat. apply Forall_forall. intros s I. apply in_map_iff in I as ([b w] & <- & I).
  assert (PW : plain w).
  { intros c C. apply P. rewrite <- (runs_concat v). apply in_concat. exists w. split; auto. apply in_map_iff. exists (b, w). auto. }
  cbn [fst snd]. destruct b; [|apply mi_good; auto].
  apply commands_good; [apply variant_good; destruct f; vm_compute; reflexivity|]. apply good_plain; auto.
Qed.

(** ** Elements *)
Definition element_ok (f : bool) : tree -> Prop := if f then fenced_element else plain_element.
Ltac const := apply constant_good; vm_compute; reflexivity.
Ltac const2 f := destruct f; const.
Lemma good_base f b s : good f s -> good f (base_latex b s).
Proof. intro G. unfold base_latex. destruct (_ && _); auto. apply good_left_paren; auto. Qed.
Lemma good_paren_long f s : good f s -> good f (paren_if_long s).
Proof. intro G. unfold paren_if_long. destruct (Nat.ltb _ _); auto. apply good_left_paren; auto. Qed.
Lemma good_paren_space f s : good f s -> good f (paren_if_space s).
Proof. intro G. unfold paren_if_space. destruct (existsb _ _); auto. apply good_left_paren; auto. Qed.
Lemma good_fence_join f ss : Forall (good f) ss -> forall seps, plain seps -> good f (fence_join (map (fun c => [c]) seps) ss).
Proof.
  induction 1 as [|s ss G F IH]; intros seps P; [apply good_nil|]. destruct ss as [|s2 ss]; [destruct seps as [|? [|]]; exact G|].
  destruct seps as [|c [|c2 seps]].
  - change (good f (s ++ lit "," ++ fence_join (map (fun c => [c]) []) (s2 :: ss))).
    apply good_app; auto. apply good_app; [const2 f|]. apply IH; auto.
  - change (good f (s ++ [c] ++ fence_join (map (fun c => [c]) [c]) (s2 :: ss))).
    apply good_app; auto. apply good_app; [apply good_plain; auto|]. apply IH; auto.
  - change (good f (s ++ [c] ++ fence_join (map (fun c => [c]) (c2 :: seps)) (s2 :: ss))).
    apply good_app; auto. apply good_app; [apply good_plain; intros x [<-|[]]; apply P; cbn; auto|]. apply IH.
    intros x I. apply P. cbn. auto.
Qed.
Lemma good_template f c s : good f (lit c) -> good f s -> good f (lit c ++ lit "{" ++ s ++ lit "}").
Proof. intros A B. apply good_app; auto. apply good_braced. auto. Qed.
Lemma good_dot_bar f s : good f s -> good f (lit "\left" ++ lit "." ++ s ++ lit "\right" ++ lit "|").
Proof.
  intro G. destruct f.
  - apply good_fenced; auto; try discriminate.
    + apply plain_spec. reflexivity.
    + apply plain_spec. reflexivity.
    + intros c s' [= <- <-]. auto.
    + intros c s' [= <- <-]. auto.
  - repeat apply good_app; auto; const.
Qed.
Lemma good_enclosed f name s : (f = true -> ~ In name (map lit ["left"; "right"; "madruwb"])) -> (f = false -> name <> lit "madruwb" \/ True) ->
  good f s -> good f (enclosed name s).
Proof.
  intros NF _ G. destruct (in_dec str_dec name (map (fun e => lit (fst e)) notations)) as [I|N].
  2: { rewrite enclosed_unknown by auto. change (lit "\overline{\left.\right)") with (lit "\overline" ++ lit "{" ++ lit "\left.\right)").
       rewrite <- !app_assoc. rewrite (app_assoc (lit "\left.\right)")). apply good_template; [const2 f|]. apply good_app; auto. const2 f. }
  apply in_map_iff in I as ([k [b e]] & <- & I). cbn [fst] in *. rewrite (enclosed_known _ _ _ _ I).
  assert (W : forall c, b = append c "{" -> e = "}" -> good f (lit c) -> good f (lit b ++ s ++ lit e)).
  { intros c -> -> GC. rewrite lit_app, <- app_assoc. apply good_template; auto. }
  unfold notations in I.
  repeat (destruct I as [I|I]; [injection I as <- <- <-|]).
  all: try (apply (W "\sqrt"); [reflexivity|reflexivity|const2 f]; fail).
  all: try (apply (W "\boxed"); [reflexivity|reflexivity|const2 f]; fail).
  all: try (apply (W "\overline"); [reflexivity|reflexivity|const2 f]; fail).
  all: try (apply (W "\underline"); [reflexivity|reflexivity|const2 f]; fail).
  all: try (apply (W "\cancel"); [reflexivity|reflexivity|const2 f]; fail).
  all: try (apply (W "\bcancel"); [reflexivity|reflexivity|const2 f]; fail).
  all: try (apply (W "\hcancel"); [reflexivity|reflexivity|const2 f]; fail).
  all: try (apply (W "\cancelto{}"); [reflexivity|reflexivity|const2 f]; fail).
  - (* actuarial *) 
    change (good f (lit "\overline" ++ lit "{" ++ lit "\left" ++ lit "." ++ s ++ lit "\right" ++ lit "|" ++ lit "}")).
    replace (lit "\left" ++ lit "." ++ s ++ lit "\right" ++ lit "|" ++ lit "}") with ((lit "\left" ++ lit "." ++ s ++ lit "\right" ++ lit "|") ++ lit "}")
      by (rewrite <- !app_assoc; reflexivity).
    apply good_template; [const2 f|]. apply good_dot_bar; auto.
  - destruct f; [exfalso; apply NF; cbn; auto|]. change (lit "") with (@nil N). rewrite app_nil_r. apply good_app; auto. const.
  - destruct f; [exfalso; apply NF; cbn; auto|]. change (good false (s ++ lit "\right|")). apply good_app; auto. const.
  - destruct f; [exfalso; apply NF; cbn; auto|].
    change (good false (lit "\underline" ++ lit "{" ++ s ++ lit "\right|" ++ lit "}")). rewrite (app_assoc s).
    apply good_template; [const|]. apply good_app; auto. const.
  - change (good f (braced (lit "\angle \underline{" ++ s ++ lit "}"))) || idtac.
    replace (lit "{\angle \underline{" ++ s ++ lit "}}") with (braced (lit "\angle \underline" ++ lit "{" ++ s ++ lit "}")).
    + apply good_braced, good_template; auto. const2 f.
    + unfold braced. rewrite <- !app_assoc. reflexivity.
  - destruct I.
Qed.
Lemma fence_env_letters op cl : letters (lit (fence_env op cl)).
Proof.
  unfold fence_env. repeat match goal with |- context [if ?b then _ else _] => destruct b end;
  apply Forall_forall; intros c I; cbn in I; repeat (destruct I as [<-|I]; [reflexivity|]); destruct I.
Qed.
Lemma matrix_env_cases op cl : String.eqb (fence_env op cl) "matrix" = true -> op <> cl.
Proof.
  unfold fence_env. intros E ->. revert E. rewrite str_eqb_refl.
  repeat match goal with |- context [if ?b then _ else _] => destruct b end; discriminate.
Qed.
Lemma truthy_nonempty s : truthy s = true -> s <> [].
Proof. destruct s; discriminate. Qed.
Lemma good_default s d : good_fence s -> good_fence (lit d) -> good_fence (default s d).
Proof. unfold default. destruct (truthy s); auto. Qed.
Lemma plain_default s d : plain s -> plain (lit d) -> plain (default s d).
Proof. unfold default. destruct (truthy s); auto. Qed.
Lemma assembled_good f inside n v ch a ss out : element_ok f (T n v ch a) -> Forall (good f) ss ->
  assembled inside v ch a n ss out -> good f out.
Proof.
  intros K F A.
  assert (PT : In n token_tags -> plain v) by (destruct f; apply K).
  inversion A; subst; try (apply mi_good, PT; cbn; auto; fail); try (apply mo_good, PT; cbn; auto; fail);
    try (apply mn_good, PT; cbn; auto; fail); try (apply mtext_good, PT; cbn; auto; fail);
    repeat match goal with
    | H : Forall (good f) (_ :: _) |- _ => let X := fresh "G" in let Y := fresh "F" in inversion H as [|? ? X Y]; subst; clear H
    end.
  - apply good_nil.
  - apply good_squeeze, good_join; auto. const2 f.
  - apply good_join; auto. const2 f.
  - apply good_command; [destruct f; reflexivity|]. apply good_join; auto. const2 f.
  - apply good_app; [const2 f|]. apply good_braced, good_join; auto. const2 f.
  - apply good_join; auto. const2 f.
  - apply good_enclosed; auto; [|apply good_join; auto; const2 f].
    intros -> I. destruct K as (_ & _ & K). apply (K eq_refl). cbn [t_attributes]. unfold attr, dget_or in *.
    destruct (dget a (lit "notation")); auto. exfalso. cbn in I. intuition discriminate.
  - cbv zeta. assert (G : good f (join (lit " \\" ++ nl) ss)) by (apply good_join; auto; const2 f).
    destruct (_ || _); auto. apply good_env; auto. repeat constructor.
  - (* matrix *) unfold fenced_matrix.
    assert (G : good f (env (fence_env (attr a "open") (attr a "close")) (nl ++ concat ss ++ nl))).
    { apply good_env; [apply fence_env_letters|]. apply good_app; [const2 f|]. apply good_app; [apply good_concat; auto|const2 f]. }
    destruct (String.eqb _ _) eqn:E; auto. apply matrix_env_cases in E as NE. destruct f.
    + destruct K as (_ & K & _). destruct (K eq_refl) as (_ & P1 & P2 & G1 & G2 & K2). cbn [t_attributes t_children] in *.
      destruct (K2 H) as [X|[X Y]]; [contradiction|]. apply good_fenced; auto.
    + destruct K as (_ & K). destruct (K eq_refl) as (_ & [[P1 P2]|[E1 E2]]); cbn [t_attributes] in *.
      * apply good_app; [const|]. apply good_app; [apply good_plain; auto|]. apply good_app; auto. apply good_app; [const|apply good_plain; auto].
      * rewrite E1, E2 in E. discriminate.
  - (* fenced *) destruct f.
    + destruct K as (_ & K & _). destruct (K eq_refl) as (P0 & P1 & P2 & G1 & G2 & _). cbn [t_attributes t_children] in *.
      apply good_fenced.
      * apply plain_default; auto. apply plain_spec. reflexivity.
      * apply plain_default; auto. apply plain_spec. reflexivity.
      * unfold default. destruct (attr a "open"); discriminate.
      * unfold default. destruct (attr a "close"); discriminate.
      * apply good_default; auto. intros c s' [= <- <-]. auto.
      * apply good_default; auto. intros c s' [= <- <-]. auto.
      * apply good_fence_join; auto.
    + destruct K as (_ & K). destruct (K eq_refl) as (P0 & K2). cbn [t_attributes] in *.
      pose proof (good_fence_join false ss F _ P0) as GJ. destruct K2 as [[P1 P2]|[E1 E2]].
      * apply good_app; [const|]. apply good_app; [apply good_plain, plain_default; auto; apply plain_spec; reflexivity|].
        apply good_app; auto. apply good_app; [const|]. apply good_plain, plain_default; auto. apply plain_spec. reflexivity.
      * rewrite E1, E2. apply good_app; [const|].
        change (default (lit "{") "(") with (lit "{"). change (default (lit "}") ")") with (lit "}").
        rewrite (app_assoc _ (lit "\right")). apply good_braced. apply good_app; auto. const.
  - auto.
  - apply good_join; auto. const2 f.
  - apply good_app; [apply good_base; auto|]. apply good_command; auto; destruct f; reflexivity.
  - apply good_app; [apply good_base; auto|]. apply good_command; auto; destruct f; reflexivity.
  - apply good_app; [apply good_base; auto|]. rewrite app_assoc. apply good_app; apply good_command; auto; destruct f; reflexivity.
  - apply good_app; auto. rewrite app_assoc. apply good_app; apply good_command; auto; destruct f; reflexivity.
  - rewrite app_assoc. apply good_app; [|apply good_braced; auto]. apply good_command; auto; destruct f; reflexivity.
  - apply good_app; [apply good_paren_long; auto|]. apply good_app; [const2 f|apply good_paren_long; auto].
  - apply good_app; [const2 f|]. apply good_app; auto. apply good_command; auto; destruct f; reflexivity.
  - apply good_app; auto. apply good_braced; auto.
  - rewrite app_assoc. apply good_app; [|apply good_braced; auto]. apply good_app; [|apply good_braced; auto].
    destruct H as [H|[H|[]]]; injection H as <- <-; const2 f.
  - assert (SG : forall p, Forall (good f) (pair_list p) -> good f (scripts_of p)).
    { intros [[x y]|] Fp; [|apply good_nil]. cbn [pair_list] in Fp. inversion Fp as [|? ? Gx Fy]; subst. inversion Fy as [|? ? Gy _]; subst.
      cbn [scripts_of]. rewrite app_assoc. apply good_app; apply good_command; auto; destruct f; reflexivity. }
    assert (PG : forall p, Forall (good f) (pair_list p) -> good f (pre_of p)).
    { intros [[x y]|] Fp; [|apply good_nil]. cbn [pair_list] in Fp. inversion Fp as [|? ? Gx Fy]; subst. inversion Fy as [|? ? Gy _]; subst.
      cbn [scripts_of pre_of]. rewrite (app_assoc (lit "\")). change (lit "\" ++ lit "_") with (lit "\_").
      rewrite app_assoc. apply good_app; apply good_command; auto; destruct f; reflexivity. }
    apply Forall_app in F0 as [F1 F2]. apply good_app; auto. apply good_app; auto. apply good_paren_space; auto.
Qed.
Lemma visits_trans t c u : In c (visited t) -> visits c u -> visits t u.
Proof. apply visits_child. Qed.
Lemma render_good f t : forall inside s, render inside t = Ok s -> (forall u, visits t u -> element_ok f u) -> good f s.
Proof.
  intros inside s E. revert t inside s E.
  apply (render_assembled (fun _ t s => (forall u, visits t u -> element_ok f u) -> good f s)).
  intros inside n v ch a ss out F A K. apply (assembled_good f inside n v ch a ss out); auto; [apply K; constructor|].
  assert (KV : forall c, In c (visited (T n v ch a)) -> forall u, visits c u -> element_ok f u) by (intros c I u V; apply K; eapply visits_child; eauto).
  revert KV F. generalize (visited (T n v ch a)) as l. clear. intros l KV F. induction F as [|c s l ss H F IH]; constructor.
  - apply H. apply KV. cbn; auto.
  - apply IH. intros x I. apply KV. cbn; auto.
Qed.
Lemma latex_good f t s : (forall u, visits t u -> element_ok f u) -> latex_of t = Ok s -> good f s.
Proof. intros K E. rewrite latex_of_render in E. eapply render_good; eauto. Qed.
Lemma document_good f d s : (forall t, In t (math_trees d) -> forall u, visits t u -> element_ok f u) -> document_latex d = Ok s -> good f s.
Proof.
  unfold document_latex. intros K E. destruct (rseq (map latex_of (math_trees d))) as [ss|] eqn:R; [|discriminate]. cbn [rbind] in E.
  assert (E' : concat ss = s) by congruence. subst s. apply good_concat. apply rseq_map_forall in R.
  revert K R. generalize (math_trees d) as l. clear. intros l K R. induction R as [|c s l ss H F IH]; constructor.
  - eapply latex_good; eauto. apply K. cbn; auto.
  - apply IH. intros x I. apply K. cbn; auto.
Qed.
