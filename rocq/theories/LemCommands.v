(** Which commands and characters the output holds (C61, C62). *)
From Coq Require Import String.
From Verif Require Export SpecCommands LemMarks.
Local Open Scope string_scope.
Local Open Scope list_scope.

(** ** Joining texts *)
(** The commands of the layout that every set of commands must hold. *)
Definition base_words : list str := map lit [
   "frac"; "sqrt"; "left"; "right"; "begin"; "end"; "underset"; "overset"; "Longrightarrow"; "overline"; "underline";
   "boxed"; "cancel"; "bcancel"; "cancelto"; "angle"; "color"].
Definition base_token (t : token) : bool :=
  match t with Word w => str_in w base_words | Sym c => (c =? 95)%N || (c =? 92)%N | Chr _ => true end.
Lemma glued_none a w b : mode None a = Some w -> w <> [] -> no_letter_first b -> tex_tokens (a ++ b) = tex_tokens a ++ tex_tokens b.
Proof.
  intros M W H. pose proof (tokens_glued a w [] b M W ltac:(constructor) H) as E. cbn [app] in E.
  rewrite E, app_nil_r, (tokens_done a), M. cbn [flush]. rewrite <- app_assoc. reflexivity.
Qed.

Section Words.
  Variable W : token -> Prop.
  Variable free : bool.
  Hypothesis W_chr : forall c, W (Chr c).
  Hypothesis W_base : forall t, base_token t = true -> W t.
  Hypothesis W_glue : free = true -> forall w l, letters l -> W (Word w) -> W (Word (w ++ l)).
  Definition fine (s : str) : Prop := neat s /\ forall t, In t (tex_tokens s) -> W t.
  Definition joint (a b : str) : Prop := free = true \/ mode None a = None \/ no_letter_first b.

  Lemma fine_app a b : joint a b -> fine a -> fine b -> fine (a ++ b).
  Proof.
    intros J [N1 W1] [N2 W2]. split; [apply neat_app; auto|]. 
    assert (X : tex_tokens (a ++ b) = tex_tokens a ++ tex_tokens b -> forall t, In t (tex_tokens (a ++ b)) -> W t).
    { intros -> t I. apply in_app_or in I as [I|I]; auto. }
    destruct N1 as [M _]. destruct J as [F|[J|J]].
    - destruct (tokens_app_split a b M) as [E|(t & w & l & r & E1 & L & E2 & E3)]; [apply X; auto|].
      intros k I. rewrite E3 in I. apply in_app_or in I as [I|[<-|I]].
      + apply W1. rewrite E1. apply in_or_app. auto.
      + apply W_glue; auto. apply W1. rewrite E1. apply in_or_app. cbn. auto.
      + apply W2. rewrite E2. apply in_or_app. auto.
    - apply X. apply tokens_app_none; auto.
    - apply X. destruct (mode None a) as [w|] eqn:E; [|apply tokens_app_none; auto]. apply (glued_none a w); auto. intros ->. auto.
  Qed.
  Definition const_ok (s : str) : bool := neat_b s && forallb base_token (tex_tokens s).
  Lemma fine_const s : const_ok s = true -> fine s.
  Proof.
    unfold const_ok. rewrite andb_true_iff, forallb_forall. intros [N F]. split; [apply neat_check; auto|]. auto.
  Qed.
  Lemma fine_plain s : backslash_free s -> fine s.
  Proof.
    intro B. destruct (tokens_plain s) as [E M]; [intros c I ->; auto|]. split; [split|]; rewrite ?M, ?E; [discriminate| |];
    intros t I; apply in_map_iff in I as (x & <- & _) || (apply in_map_iff in I as (x & E' & _); discriminate); auto.
  Qed.
  Lemma plain_ends s : backslash_free s -> mode None s = None.
  Proof. intro B. apply (tokens_plain s). intros c I ->. auto. Qed.
  Lemma fine_squeeze s : fine s -> fine (squeeze s).
  Proof.
    intros [N F]. pose proof (tokens_squeeze (length s) s (le_n _) (proj2 N)) as Q.
    assert (M : marked (Chr 35%N) (squeeze s) (count (Chr 35%N) s)) by (apply marked_squeeze; [cbn; auto|split; auto]).
    split; [apply M|]. intros t I. destruct (blank t) eqn:B; [|apply F, (spaced_words _ _ Q); auto].
    destruct t; try discriminate B. auto.
  Qed.

  (** Constants before and after. *)
  Definition opening (s : str) : bool := const_ok s && match mode None s with None => true | Some _ => false end.
  Definition closing (s : str) : bool := const_ok s && match s with c :: _ => negb (ascii_letter c) | [] => true end.
  Lemma closing_first s : closing s = true -> no_letter_first s.
  Proof. unfold closing. rewrite andb_true_iff. intros [_ H]. destruct s; cbn; auto. apply negb_true_iff. auto. Qed.
  Lemma closing_fine s : closing s = true -> fine s.
  Proof. unfold closing. rewrite andb_true_iff. intros [H _]. apply fine_const. auto. Qed.
  Lemma fine_before b s : opening b = true -> fine s -> fine (b ++ s).
  Proof.
    unfold opening. rewrite andb_true_iff. intros [C M] F. apply fine_app; auto; [|apply fine_const; auto].
    right. left. destruct (mode None b); [discriminate|reflexivity].
  Qed.
  Lemma fine_after s e : closing e = true -> fine s -> fine (s ++ e).
  Proof. intros C F. apply fine_app; auto; [right; right; apply closing_first; auto|apply closing_fine; auto]. Qed.
  Lemma fine_then s e r : closing e = true -> fine s -> fine (e ++ r) -> e <> [] -> fine (s ++ e ++ r).
  Proof.
    intros C F G N. apply fine_app; auto. right. right. apply closing_first in C. destruct e; [congruence|]. exact C.
  Qed.
  Lemma fine_around b s e : opening b = true -> closing e = true -> fine s -> fine (b ++ s ++ e).
  Proof. intros B E F. apply fine_before; auto. apply fine_after; auto. Qed.
  Lemma fine_nil : fine [].
  Proof. apply fine_const. reflexivity. Qed.
  Lemma fine_braced s : fine s -> fine (braced s).
  Proof. intro F. unfold braced. apply fine_around; auto. Qed.
  Lemma fine_paren s : fine s -> fine (lit "\left(" ++ s ++ lit "\right)").
  Proof. intro F. apply fine_around; auto. Qed.
  Lemma fine_base b s : fine s -> fine (base_latex b s).
  Proof. intro F. unfold base_latex. destruct (_ && _); auto. apply fine_paren; auto. Qed.
  Lemma fine_long s : fine s -> fine (paren_if_long s).
  Proof. intro F. unfold paren_if_long. destruct (Nat.ltb _ _); auto. apply fine_paren; auto. Qed.
  Lemma fine_space s : fine s -> fine (paren_if_space s).
  Proof. intro F. unfold paren_if_space. destruct (existsb _ _); auto. apply fine_paren; auto. Qed.
  Lemma fine_join gap ss : closing gap = true -> opening gap = true -> gap <> [] -> Forall fine ss -> fine (join gap ss).
  Proof.
    intros C O N F. induction F as [|s ss M F IH]; [apply fine_nil|].
    destruct ss as [|s2 ss]; [exact M|]. change (join gap (s :: s2 :: ss)) with (s ++ gap ++ join gap (s2 :: ss)).
    apply fine_then; auto. apply fine_before; auto.
  Qed.
  Lemma fine_concat ss : free = true \/ length ss <= 1 -> Forall fine ss -> fine (concat ss).
  Proof.
    intros L F. induction F as [|s ss M F IH]; [apply fine_nil|]. cbn [concat length] in *. apply fine_app; auto.
    - destruct L as [L|L]; [left; auto|]. destruct ss; [right; right; cbn; auto|cbn in L; lia].
    - apply IH. destruct L; [auto|lia].
  Qed.
  Lemma fine_env name s : const_ok (lit name) = true -> mode None (lit name) = None -> fine s -> fine (env name s).
  Proof.
    intros N M F. assert (O : opening (lit name) = true) by (unfold opening; rewrite N, M; reflexivity).
    unfold env. apply fine_before; [reflexivity|]. apply fine_before; auto. apply fine_before; [reflexivity|].
    apply fine_then; [reflexivity|auto| |discriminate]. apply fine_before; [reflexivity|]. apply fine_before; auto. apply fine_const. reflexivity.
  Qed.
  Lemma fine_fence_join seps ss : backslash_free seps -> (free = true \/ forall c, In c seps -> ascii_letter c = false) -> Forall fine ss ->
    fine (fence_join (map (fun c => [c]) seps) ss).
  Proof.
    intros P A F. revert seps P A. induction F as [|s ss M F IH]; intros seps P A; [apply fine_nil|].
    destruct ss as [|s2 ss]; [destruct seps as [|? [|]]; exact M|].
    assert (X : forall c r, In c seps -> fine r -> fine (s ++ [c] ++ r)).
    { intros c r I R. assert (B : backslash_free [c]) by (intros [E|[]]; subst; auto). apply fine_app; auto.
      - destruct A as [A|A]; [left; auto|right; right; cbn; auto].
      - apply fine_app; auto; [right; left; apply plain_ends; auto|apply fine_plain; auto]. }
    destruct seps as [|c [|c2 seps]].
    - change (fine (s ++ lit "," ++ fence_join (map (fun c => [c]) []) (s2 :: ss))). apply fine_then; auto; [|discriminate]. apply fine_before; [reflexivity|]. auto.
    - apply (X c (fence_join (map (fun c => [c]) [c]) (s2 :: ss))); [cbn; auto|]. apply IH; auto.
    - apply (X c (fence_join (map (fun c => [c]) (c2 :: seps)) (s2 :: ss))); [cbn; auto|]. apply IH.
      + intros I. apply P. right. auto.
      + destruct A as [A|A]; [left; auto|right]. intros x I. apply A. right. auto.
  Qed.
  Definition strike (name : str) : Prop := In name [lit "verticalstrike"; lit "horizontalstrike"].
  Lemma notations_fine : forallb (fun e : string * (string * string) => opening (lit (fst (snd e))) && closing (lit (snd (snd e)))
    || str_in (lit (fst e)) [lit "verticalstrike"; lit "horizontalstrike"]) notations = true.
  Proof. vm_compute. reflexivity. Qed.
  Lemma fine_enclosed name s : (strike name -> W (Word (lit "hcancel"))) -> fine s -> fine (enclosed name s).
  Proof.
    intros H M. destruct (in_dec str_dec name (map (fun e => lit (fst e)) notations)) as [I|N].
    - apply in_map_iff in I as ([key [b e]] & <- & I). cbn [fst] in *. rewrite (enclosed_known _ _ _ _ I).
      pose proof notations_fine as X. rewrite forallb_forall in X. specialize (X _ I). cbn [fst snd] in X.
      apply orb_true_iff in X as [X|X]; [apply andb_true_iff in X as [X1 X2]; apply fine_around; auto|].
      apply str_in_spec in X. specialize (H X).
      assert (Y : b = "\hcancel{"%string /\ e = "}"%string).
      { clear - I X. cbn in X. repeat (destruct I as [I|I]; [injection I as <- <- <-; first [split; reflexivity|exfalso; destruct X as [X|[X|[]]]; discriminate X]|]). destruct I. }
      destruct Y as [-> ->]. assert (T : tex_tokens (lit "\hcancel{") = [Word (lit "hcancel"); Chr 123%N]) by reflexivity.
      apply fine_app; [right; left; reflexivity| |apply fine_after; auto].
      split; [apply neat_check; reflexivity|]. rewrite T. intros t [<-|[<-|[]]]; auto.
    - rewrite enclosed_unknown by auto. apply fine_around; auto.
  Qed.
  Lemma fence_env_fine op cl : const_ok (lit (fence_env op cl)) = true /\ mode None (lit (fence_env op cl)) = None.
  Proof. unfold fence_env. repeat match goal with |- context [if ?b then _ else _] => destruct b end; vm_compute; auto. Qed.
  Definition fence_ok (s : str) : Prop := backslash_free s /\ (free = true \/ no_letter_first s).
  Lemma fine_fenced op cl s : fence_ok op -> fence_ok cl -> op <> [] \/ no_letter_first s -> fine s ->
    fine (lit "\left" ++ op ++ s ++ lit "\right" ++ cl).
  Proof.
    intros [B1 L1] [B2 L2] N F.
    assert (X : fine (op ++ s ++ lit "\right" ++ cl)).
    { apply fine_app; [right; left; apply plain_ends; auto|apply fine_plain; auto|]. apply fine_then; [reflexivity|auto| |discriminate].
      apply fine_app; [|apply fine_const; reflexivity|apply fine_plain; auto]. destruct L2; [left; auto|right; right; auto]. }
    apply fine_app; [|apply fine_const; reflexivity|auto].
    destruct L1 as [L1|L1]; [left; auto|right; right]. destruct op as [|c op]; [|exact L1]. destruct N as [N|N]; [congruence|].
    destruct s; [exact eq_refl|exact N].
  Qed.
  Lemma fence_default s d : fence_ok s -> d <> EmptyString -> fence_ok (lit d) -> fence_ok (default s d) /\ default s d <> [].
  Proof.
    intros F D G. unfold default. destruct s; cbn [truthy]; [split; auto|split; [auto|discriminate]]. destruct d; [congruence|discriminate].
  Qed.
  Lemma fine_scripts p : Forall fine (pair_list p) -> fine (scripts_of p).
  Proof.
    destruct p as [[s t]|]; cbn [pair_list scripts_of]; intro F; [|apply fine_nil]. inversion F as [|? ? F1 F2]; subst. inversion F2; subst.
    apply fine_before; [reflexivity|]. apply fine_then; [reflexivity|apply fine_braced; auto| |discriminate]. apply fine_before; [reflexivity|]. apply fine_braced; auto.
  Qed.
  Lemma fine_pre p : Forall fine (pair_list p) -> fine (pre_of p).
  Proof.
    destruct p as [[s t]|]; cbn [pair_list pre_of scripts_of]; intro F; [|apply fine_nil]. inversion F as [|? ? F1 F2]; subst. inversion F2; subst.
    rewrite app_assoc. apply fine_before; [reflexivity|]. apply fine_then; [reflexivity|apply fine_braced; auto| |discriminate].
    apply fine_before; [reflexivity|]. apply fine_braced; auto.
  Qed.
  Lemma scripts_first p : no_letter_first (scripts_of p).
  Proof. destruct p as [[s t]|]; [exact eq_refl|exact Logic.I]. Qed.
  Lemma pre_ends p : Forall fine (pair_list p) -> forall r, fine r -> fine (pre_of p ++ r).
  Proof.
    intros F r R. apply fine_app; auto; [|apply fine_pre; auto]. right. left. destruct p as [[s t]|]; [|reflexivity].
    cbn [pre_of scripts_of]. unfold braced. rewrite !mode_app. generalize (mode (mode (mode (mode (mode (mode (mode (mode None (lit "\")) (lit "_")) (lit "{")) s) (lit "}")) (lit "^")) (lit "{")) t).
    intros [[|]|]; reflexivity.
  Qed.

  Definition words_element (u : tree) : Prop :=
    (In (t_name u) token_tags -> forall s, latex_of u = Ok s -> fine s)
    /\ (t_name u = lit "mfenced" ->
        fence_ok (attr (t_attributes u) "open") /\ fence_ok (attr (t_attributes u) "close") /\ backslash_free (attr (t_attributes u) "separators")
        /\ (free = true \/ forall c, In c (attr (t_attributes u) "separators") -> ascii_letter c = false)
        /\ (free = true \/ (existsb has_table (t_children u) = true -> length (t_children u) <= 1)))
    /\ (t_name u = lit "menclose" -> strike (attr (t_attributes u) "notation") -> W (Word (lit "hcancel"))).

  Lemma assembled_fine inside n v ch a ss out : words_element (T n v ch a) -> str_in n token_tags = false ->
    length ss = length (visited (T n v ch a)) ->
    Forall fine ss -> assembled inside v ch a n ss out -> fine out.
  Proof.
    intros (_ & TE & EN) N L F A.
    destruct A; try discriminate N;
    repeat match goal with
    | H : Forall fine (_ :: _) |- _ => let X := fresh "M" in let Y := fresh "F" in inversion H as [|? ? X Y]; subst; clear H
    | H : Forall fine [] |- _ => clear H
    end.
    - apply fine_nil.
    - apply fine_squeeze, fine_join; auto. discriminate.
    - apply fine_join; auto. discriminate.
    - apply fine_app; [right; right; reflexivity|apply fine_const; reflexivity|]. apply fine_braced, fine_join; auto. discriminate.
    - apply fine_before; [reflexivity|]. apply fine_braced, fine_join; auto. discriminate.
    - apply fine_join; auto. discriminate.
    - apply fine_enclosed; [|apply fine_join; auto; discriminate]. intro S. apply EN; [reflexivity|]. revert S. cbn [t_attributes].
      unfold attr, dget_or. destruct (dget a (lit "notation")); auto. intros [S|[S|[]]]; discriminate S.
    - cbv zeta. assert (X : fine (join (lit " \\" ++ nl) ss)) by (apply fine_join; auto; discriminate).
      destruct (_ || _); auto. apply fine_env; auto.
    - (* matrix *) change (visited (T (lit "mfenced") v ch a)) with ch in L.
      destruct (TE eq_refl) as (O & C & _ & _ & TB). cbn [t_attributes t_children] in *. unfold fenced_matrix.
      assert (X : fine (concat ss)) by (apply fine_concat; auto; destruct TB; [auto|right; rewrite L; auto]).
      destruct (fence_env_fine (attr a "open") (attr a "close")) as [E1 E2].
      assert (G : fine (env (fence_env (attr a "open") (attr a "close")) (nl ++ concat ss ++ nl))) by (apply fine_env; auto; apply fine_around; auto).
      destruct (String.eqb _ _); auto. apply fine_fenced; auto.
    - (* fenced *) destruct (TE eq_refl) as (O & C & S & SA & _). cbn [t_attributes t_children] in *.
      assert (K : forall d, In d ["("; ")"]%string -> fence_ok (lit d)).
      { intros d [<-|[<-|[]]]; (split; [intros [I|[]]; discriminate I|right; reflexivity]). }
      destruct (fence_default (attr a "open") "(" O ltac:(discriminate) (K "("%string ltac:(cbn; auto))) as [O1 O2].
      destruct (fence_default (attr a "close") ")" C ltac:(discriminate) (K ")"%string ltac:(cbn; auto))) as [C1 C2].
      apply fine_fenced; auto. apply fine_fence_join; auto.
    - auto.
    - apply fine_join; auto. discriminate.
    - apply fine_then; [reflexivity|apply fine_base; auto| |discriminate]. apply fine_before; [reflexivity|]. apply fine_braced; auto.
    - apply fine_then; [reflexivity|apply fine_base; auto| |discriminate]. apply fine_before; [reflexivity|]. apply fine_braced; auto.
    - apply fine_then; [reflexivity|apply fine_base; auto| |discriminate]. apply fine_before; [reflexivity|].
      apply fine_then; [reflexivity|apply fine_braced; auto| |discriminate]. apply fine_before; [reflexivity|]. apply fine_braced; auto.
    - apply fine_then; [reflexivity|auto| |discriminate]. apply fine_before; [reflexivity|].
      apply fine_then; [reflexivity|apply fine_braced; auto| |discriminate]. apply fine_before; [reflexivity|]. apply fine_braced; auto.
    - apply fine_app; [right; right; reflexivity|apply fine_const; reflexivity|].
      apply fine_app; [right; right; reflexivity|apply fine_braced; auto|apply fine_braced; auto].
    - apply fine_then; [reflexivity|apply fine_long; auto| |discriminate]. apply fine_before; [reflexivity|]. apply fine_long; auto.
    - apply fine_before; [reflexivity|]. apply fine_then; [reflexivity|auto| |discriminate]. apply fine_before; [reflexivity|]. apply fine_braced; auto.
    - apply fine_app; [right; right; reflexivity|auto|apply fine_braced; auto].
    - assert (C : const_ok c = true) by (destruct H as [H|[H|[]]]; injection H as <- <-; reflexivity).
      apply fine_app; [right; right; reflexivity|apply fine_const; auto|].
      apply fine_app; [right; right; reflexivity|apply fine_braced; auto|apply fine_braced; auto].
    - apply Forall_app in F0 as [F1 F2]. apply pre_ends; auto. apply fine_app; [right; right; apply scripts_first|apply fine_space; auto|apply fine_scripts; auto].
  Qed.

  Lemma latex_fine t s : (forall u, visits t u -> words_element u) -> latex_of t = Ok s -> fine s.
  Proof.
    intros H E. rewrite latex_of_render in E. revert H.
    enough (forall t inside s, render inside t = Ok s -> (forall u, visits t u -> words_element u) -> fine s) as X by eauto.
    clear t s E. intros t. induction t as [n v ch a IH] using tree_ind'. intros inside s E H.
    apply render_view in E as (ss & R & A). apply rseq_map_forall in R.
    destruct (str_in n token_tags) eqn:N.
    - apply (proj1 (H (T n v ch a) (visits_self _))); [apply str_in_spec; auto|]. apply (token_assembled inside n v ch a ss s A N).
    - apply (assembled_fine inside n v ch a ss s); auto.
      + apply H. constructor.
      + clear - R. induction R; cbn; auto.
      + assert (IV : forall c, In c (visited (T n v ch a)) -> forall inside s, render inside c = Ok s -> fine s).
        { intros c I i s0 E. rewrite Forall_forall in IH. apply visited_child in I as J. eapply IH; eauto. intros u V. apply H. eapply visits_inner; eauto. }
        revert R IV. generalize (visited (T n v ch a)) as l. clear. intros l R IV. induction R; constructor.
        * eapply IV; cbn; eauto.
        * apply IHR. intros c I. apply IV. cbn; auto.
  Qed.
  Lemma document_fine d s : free = true -> (forall t u, In t (math_trees d) -> visits t u -> words_element u) -> document_latex d = Ok s -> fine s.
  Proof.
    intros G H. unfold document_latex. destruct (rseq (map latex_of (math_trees d))) as [ss|] eqn:R; [|discriminate]. cbn [rbind]. intro E.
    assert (X : s = concat ss) by congruence. subst s. clear E. apply rseq_map_forall in R.
    apply fine_concat; auto. revert R H. generalize (math_trees d). intros l R H. induction R; constructor.
    - eapply latex_fine; eauto. intros u V. apply (H x); cbn; auto.
    - apply IHR. intros t u I. apply H. cbn. auto.
  Qed.
End Words.

(** ** Tokens *)
Definition listed_b (t : token) : bool :=
  match t with Word w => str_in w vocabulary | Sym c => existsb (N.eqb c) control_symbols | Chr _ => true end.
Definition known_b (t : token) : bool := listed_b t && match t with Word w => negb (str_in w not_latex) | _ => true end.
Lemma listed_check t : listed_b t = true -> listed t.
Proof.
  destruct t; cbn [listed_b listed]; auto; intro H; [apply str_in_spec; auto|]. apply existsb_exists in H as (x & I & E). apply N.eqb_eq in E. subst x. auto.
Qed.
Definition known (t : token) : Prop := listed t /\ match t with Word w => ~ In w not_latex | _ => True end.
Lemma known_check t : known_b t = true -> known t.
Proof.
  unfold known_b. rewrite andb_true_iff. intros [L K]. split; [apply listed_check; auto|]. destruct t; auto.
  intro I. apply str_in_spec in I. rewrite I in K. discriminate.
Qed.
Lemma listed_weak t : listed t -> listed_glued t.
Proof. destruct t; auto. intro H. exists letters, []. split; auto. split; [constructor|symmetry; apply app_nil_r]. Qed.
Lemma glued_more w l : letters l -> listed_glued (Word w) -> listed_glued (Word (w ++ l)).
Proof. intros L (v & m & I & M & ->). exists v, (m ++ l). split; auto. split; [apply Forall_app; auto|symmetry; apply app_assoc]. Qed.
Lemma base_known t : base_token t = true -> known t.
Proof.
  destruct t as [w|c|c]; cbn [base_token]; intro H; [| |split; exact Logic.I].
  - apply str_in_spec in H. apply known_check. revert w H. apply Forall_forall. repeat constructor.
  - apply known_check. apply orb_true_iff in H as [H|H]; apply N.eqb_eq in H; subst c; reflexivity.
Qed.

(** Values of the tables. *)
Definition value_ok (ok : token -> bool) (s : str) : bool := neat_b s && forallb ok (tex_tokens s).
Lemma values_listed : forallb (forallb (fun kv : str * str => value_ok listed_b (snd kv))) five_tables = true.
Proof. vm_compute. reflexivity. Qed.
Lemma accents_known : forallb (fun kv => value_ok known_b (accent_or_font (fst kv))) vowels_with_accents = true.
Proof. vm_compute. reflexivity. Qed.
Lemma fonts_known : forallb (fun kv => value_ok known_b (accent_or_font (fst kv))) special_font_chars = true.
Proof. vm_compute. reflexivity. Qed.
Lemma mi_known : forallb (forallb (fun kv : str * str => value_ok known_b (snd kv) || str_in (fst kv) (map (fun c => [c]) unknown_characters))) mi_tables = true.
Proof. vm_compute. reflexivity. Qed.
Lemma mo_known : forallb (forallb (fun kv : str * str => value_ok known_b (snd kv) || str_in (fst kv) unknown_operators)) mo_tables = true.
Proof. vm_compute. reflexivity. Qed.
Lemma mn_known : forallb (fun kv : str * str => value_ok known_b (snd kv)) math_number_by_glyph = true.
Proof. vm_compute. reflexivity. Qed.
Lemma first_values (f : str * str -> bool) ts w s : forallb (forallb f) ts = true -> first_entry ts w = Some s -> f (w, s) = true.
Proof.
  induction ts as [|d ts IH]; intros F E; [discriminate|]. cbn [first_entry forallb] in *. apply andb_true_iff in F as [F1 F2].
  destruct (dget d w) as [[|c cs]|] eqn:G; auto. injection E as <-. apply dget_In in G. rewrite forallb_forall in F1. apply F1. auto.
Qed.
Lemma backslash_known ts : In ts [mi_tables; mo_tables] -> first_entry ts [backslash] <> None.
Proof. intros [<-|[<-|[]]]; vm_compute; discriminate. Qed.
Lemma shown_backslash v c : shows v c -> backslash_free (squeeze v) \/ squeeze v = [c].
Proof.
  intro S. destruct (is_space c) eqn:B.
  - left. destruct S as (p & q & -> & P & Q). unfold squeeze. rewrite words_white; [intros []|].
    apply Forall_app. split; auto. constructor; auto. apply white_is_space. auto.
  - right. apply squeeze_shows; auto. apply not_white. auto.
Qed.
Lemma squeeze_backslash v : backslash_free v -> backslash_free (squeeze v).
Proof. intros B I. apply squeeze_chars in I as [I|I]; [discriminate|auto]. Qed.

Section Tokens.
  Variable W : token -> Prop.
  Variable free : bool.
  Hypothesis W_known : forall t, known t -> W t.
  Hypothesis W_glue : free = true -> forall w l, letters l -> W (Word w) -> W (Word (w ++ l)).
  Let W_chr c : W (Chr c).
  Proof. apply W_known. split; exact Logic.I. Qed.
  Let W_base t : base_token t = true -> W t.
  Proof. intro B. apply W_known, base_known, B. Qed.
  Lemma value_fine ok s : (forall t, ok t = true -> W t) -> value_ok ok s = true -> fine W s.
  Proof. unfold value_ok. rewrite andb_true_iff, forallb_forall. intros H [N F]. split; [apply neat_check; auto|auto]. Qed.
  Lemma known_fine s : value_ok known_b s = true -> fine W s.
  Proof. apply value_fine. intros t K. apply W_known, known_check, K. Qed.
  Lemma accent_fine w : backslash_free w -> fine W (accent_or_font w).
  Proof.
    intro P. destruct (dget vowels_with_accents w) as [x|] eqn:V.
    - apply known_fine. apply dget_In in V. pose proof accents_known as X. rewrite forallb_forall in X. apply (X _ V).
    - destruct (dget special_font_chars w) as [x|] eqn:S.
      + apply known_fine. apply dget_In in S. pose proof fonts_known as X. rewrite forallb_forall in X. apply (X _ S).
      + unfold accent_or_font. rewrite V, S. apply fine_plain; auto.
  Qed.
  Lemma symbol_fine ts w : (forall s, first_entry ts w = Some s -> fine W s) ->
    backslash_free w \/ (In ts [mi_tables; mo_tables] /\ exists c, w = [c]) -> fine W (symbol ts w).
  Proof.
    intros H B. unfold symbol. destruct (first_entry ts w) as [s|] eqn:E; [auto|]. apply accent_fine.
    destruct B as [B|[T [c ->]]]; auto. intros [->|[]]. apply (backslash_known ts T). auto.
  Qed.
  Definition quiet (v : str) : Prop := backslash_free v \/ exists c, shows v c.
  Lemma quiet_symbol ts v : In ts [mi_tables; mo_tables] -> (forall s, first_entry ts (squeeze v) = Some s -> fine W s) -> quiet v ->
    fine W (symbol ts (squeeze v)).
  Proof.
    intros T H Q. apply symbol_fine; auto. destruct Q as [Q|[c Q]]; [left; apply squeeze_backslash; auto|].
    apply shown_backslash in Q as [Q|Q]; auto. right. split; eauto.
  Qed.
  Lemma commands_fine cmds s : forallb (fun c => value_ok known_b (lit c)) cmds = true -> fine W s -> fine W (in_commands cmds s).
  Proof.
    intros C M. induction cmds as [|c cmds IH]; auto. cbn [forallb] in C. apply andb_true_iff in C as [C1 C2].
    cbn [in_commands]. apply (fine_app W free); auto; [right; right; reflexivity|apply known_fine; auto|]. apply (fine_around W free); auto.
  Qed.
  Lemma commands_first c cmds s : no_letter_first (lit c) -> lit c <> [] -> no_letter_first (in_commands (c :: cmds) s).
  Proof. cbn [in_commands]. destruct (lit c); [congruence|auto]. Qed.
  Lemma variant_fine l d v : forallb (fun e : string * list string => forallb (fun c => value_ok known_b (lit c)) (snd e)) l = true ->
    forallb (fun c => value_ok known_b (lit c)) d = true -> forallb (fun c => value_ok known_b (lit c)) (variant_lookup l d v) = true.
  Proof.
    intros L D. induction l as [|[key c] l IH]; auto. cbn [forallb] in L. apply andb_true_iff in L as [L1 L2].
    cbn [variant_lookup]. destruct (str_eqb v (lit key)); auto.
  Qed.
  Lemma mi_fine v a : (forall s, first_entry mi_tables (squeeze v) = Some s -> fine W s) -> quiet v -> fine W (mi_latex v a).
  Proof.
    intros H Q. unfold mi_latex. apply commands_fine; [apply variant_fine; vm_compute; reflexivity|]. apply quiet_symbol; cbn; auto.
  Qed.
  Lemma mo_fine v : (forall s, first_entry mo_tables (squeeze v) = Some s -> fine W s) -> quiet v -> fine W (mo_latex v).
  Proof. intros H Q. unfold mo_latex. apply quiet_symbol; cbn; auto. Qed.
  Lemma mn_fine v : backslash_free v -> fine W (mn_latex v).
  Proof.
    intro B. unfold mn_latex. destruct (first_entry _ _) as [s|] eqn:E; [|apply fine_plain; auto; apply squeeze_backslash; auto].
    apply (first_values (fun kv => value_ok known_b (snd kv))) in E; [apply known_fine; auto|]. cbn [forallb]. rewrite mn_known. reflexivity.
  Qed.
  Lemma first_app a b : no_letter_first a -> no_letter_first b -> no_letter_first (a ++ b).
  Proof. destruct a; auto. Qed.
  Definition first_ok (kv : str * str) : bool :=
    match fst kv, snd kv with [c], d :: _ => negb (ascii_letter d) || plain_text_char c || existsb (N.eqb c) letter_like | _, _ => true end.
  Lemma mi_first_values : forallb (forallb first_ok) mi_tables = true.
  Proof. vm_compute. reflexivity. Qed.
  Lemma letter_plain c : ascii_letter c = true -> plain_text_char c = true.
  Proof. unfold ascii_letter, plain_text_char. intro H. apply orb_true_iff in H as [->| ->]; rewrite ?orb_true_r; reflexivity. Qed.
  Lemma mi_first c : plain_text_char c = false -> ~ In c letter_like -> no_letter_first (mi_latex [c] []).
  Proof.
    intros P NL. unfold mi_latex. change (attr [] "mathvariant") with (@nil N). change (variant_lookup mi_variants [] []) with (@nil string). cbn [in_commands].
    assert (X : squeeze [c] = [] \/ squeeze [c] = [c]).
    { unfold squeeze, words, fields. destruct (is_space c); cbn; auto. }
    destruct X as [-> | ->]; [vm_compute; exact Logic.I|]. unfold symbol. destruct (first_entry mi_tables [c]) as [s|] eqn:E.
    - apply (first_values first_ok _ _ _ mi_first_values) in E. unfold first_ok in E. cbn [fst snd] in E. destruct s as [|d s]; [exact Logic.I|].
      cbn [no_letter_first]. rewrite P, orb_false_r in E. apply orb_true_iff in E as [E|E]; [apply negb_true_iff; auto|].
      apply existsb_exists in E as (x & I & E). apply N.eqb_eq in E. subst x. contradiction.
    - assert (Y : ascii_letter c = false) by (destruct (ascii_letter c) eqn:A; auto; apply letter_plain in A; congruence).
      unfold accent_or_font. destruct (dget vowels_with_accents [c]); [destruct (dget _ _); exact eq_refl || exact Y|].
      destruct (dget special_font_chars [c]); exact eq_refl || exact Y.
  Qed.
  Lemma mtext_fine v a : (forall c s, In c v -> first_entry mi_tables (squeeze [c]) = Some s -> fine W s) ->
    free = true \/ (forall c, In c v -> ~ In c letter_like) -> fine W (mtext_latex v a).
  Proof.
    intros H A. unfold mtext_latex.
    assert (VF : forallb (fun c => value_ok known_b (lit c)) (variant_lookup mtext_variants ["\text"] (attr a "mathvariant")) = true)
      by (apply variant_fine; vm_compute; reflexivity).
    assert (VH : exists c cmds, variant_lookup mtext_variants ["\text"] (attr a "mathvariant") = c :: cmds /\ no_letter_first (lit c) /\ lit c <> []).
    { generalize (attr a "mathvariant"). intro x. cbn [variant_lookup mtext_variants].
      repeat match goal with |- context [if ?b then _ else _] => destruct b end; do 2 eexists; (split; [reflexivity|split; [reflexivity|discriminate]]). }
    destruct VH as (c0 & cmds0 & VE & VC & VN). rewrite VE in *.
    assert (X : forall l, (forall b w, In (b, w) l -> In (b, w) (text_runs v)) ->
      let out := concat (map (fun run : bool * str => if fst run then in_commands (c0 :: cmds0) (snd run) else mi_latex (snd run) []) l) in
      fine W out /\ (free = true \/ no_letter_first out)).
    2: { apply X. auto. }
    induction l as [|[b w] l IH]; intro I; cbv zeta.
    - split; [apply (fine_nil W); auto|right; exact Logic.I].
    - cbn [map concat fst snd]. destruct IH as [F1 F2]; [intros; apply I; cbn; auto|]. cbv zeta in F1, F2.
      specialize (I b w (or_introl eq_refl)). pose proof (runs_kinds _ _ _ I) as K.
      assert (IV : forall c, In c w -> In c v).
      { intros c J. rewrite <- (runs_concat v). apply in_concat. exists w. split; auto. apply in_map_iff. exists (b, w). auto. }
      assert (Y : fine W (if b then in_commands (c0 :: cmds0) w else mi_latex w [])
                  /\ (free = true \/ no_letter_first (if b then in_commands (c0 :: cmds0) w else mi_latex w []))).
      { destruct b.
        - split; [|right; apply commands_first; auto]. apply commands_fine; auto. apply fine_plain; auto. intro J.
          destruct K as [_ K]. apply (proj1 (Forall_forall _ _) K) in J. discriminate.
        - destruct K as (c & -> & PC). split.
          + apply mi_fine; [intros s E; apply (H c s); auto; apply IV; cbn; auto|]. right. exists c. apply single_shows.
          + destruct A as [A|A]; [auto|right]. apply mi_first; auto. apply A, IV. cbn. auto. }
      destruct Y as [Y1 Y2]. split.
      + apply (fine_app W free); auto. destruct F2; [left; auto|right; right; auto].
      + destruct Y2; auto. destruct F2; auto. right. apply first_app; auto.
  Qed.
End Tokens.

(** ** Trees *)
Lemma latex_token u s : In (t_name u) token_tags -> latex_of u = Ok s ->
  (t_name u = lit "mi" /\ s = mi_latex (t_value u) (t_attributes u)) \/ (t_name u = lit "mo" /\ s = mo_latex (t_value u))
   \/ (t_name u = lit "mn" /\ s = mn_latex (t_value u)) \/ (t_name u = lit "mtext" /\ s = mtext_latex (t_value u) (t_attributes u)).
Proof. intros I E. destruct (token_names u I) as (s' & E' & H). rewrite E in E'. injection E' as <-. auto. Qed.
Lemma listed_values (W : token -> Prop) w s ts : (forall t, listed t -> W t) -> incl ts five_tables -> first_entry ts w = Some s -> fine W s.
Proof.
  intros H I E. apply (first_values (fun kv => value_ok listed_b (snd kv))) in E.
  - cbn [snd] in E. unfold value_ok in E. apply andb_true_iff in E as [N F]. rewrite forallb_forall in F. split; [apply neat_check; auto|].
    intros t J. apply H, listed_check, F, J.
  - apply forallb_forall. intros d J. pose proof values_listed as X. rewrite forallb_forall in X. apply X, I, J.
Qed.
Lemma tame_words (W : token -> Prop) free u : (forall t, listed t -> W t) -> (free = true -> forall w l, letters l -> W (Word w) -> W (Word (w ++ l))) ->
  tame_element u -> free = true \/ apart_element u -> words_element W free u.
Proof.
  intros H G (TN & TI & TF) A. assert (K : forall t, known t -> W t) by (intros t [L _]; auto).
  assert (M : incl mi_tables five_tables /\ incl mo_tables five_tables) by (split; intros x I; cbn in *; tauto). destruct M as [M1 M2].
  split; [|split].
  - intros I s E. apply latex_token in E as [[N ->]|[[N ->]|[[N ->]|[N ->]]]]; auto; rewrite N in *.
    + apply (mi_fine W free); auto; [intros s0 E0; apply (listed_values W _ s0 _ H M1 E0)|]. apply TI. cbn. auto.
    + apply mo_fine; auto; [intros s0 E0; apply (listed_values W _ s0 _ H M2 E0)|]. apply TI. cbn. auto.
    + apply mn_fine; auto.
    + apply (mtext_fine W free); auto; [intros c0 s0 _ E0; apply (listed_values W _ s0 _ H M1 E0)|]. destruct A as [A|A]; auto. right. apply A. auto.
  - intro N. assert (Q : forall x, ~ begins_with_letter x -> no_letter_first x).
    { intros [|c x] B; [exact Logic.I|]. cbn. destruct (ascii_letter c) eqn:L; auto. exfalso. apply B. exists c, x. auto. }
    split; [|split; [|split; [|split]]].
    + split; [apply TF; cbn; auto|]. destruct A as [A|A]; auto. right. apply Q, A. auto.
    + split; [apply TF; cbn; auto|]. destruct A as [A|A]; auto. right. apply Q, A. auto.
    + apply TF; cbn; auto.
    + destruct A as [A|A]; auto. right. apply A. auto.
    + destruct A as [A|A]; auto. right. apply A. auto.
  - intros _ _. apply H. apply listed_check. reflexivity.
Qed.
Lemma document_commands d s : (forall t, In t (math_trees d) -> tame_tree t) -> document_latex d = Ok s ->
  forall k, In k (tex_tokens s) -> listed_glued k.
Proof.
  intros T E. apply (document_fine listed_glued true) with (d := d); auto.
  - intro c. exact Logic.I.
  - intros t B. apply listed_weak, base_known, B.
  - intros _ w l. apply glued_more.
  - intros t u I V. apply tame_words; [apply listed_weak|intros _ w l; apply glued_more|apply (T t I u V)|auto].
Qed.
Lemma latex_commands t s : tame_tree t -> apart_tree t -> latex_of t = Ok s -> forall k, In k (tex_tokens s) -> listed k.
Proof.
  intros T A E. apply (latex_fine listed false) with (t := t); auto; try discriminate.
  - intro c. exact Logic.I.
  - intros k B. apply base_known, B.
  - intros u V. apply tame_words; [auto|discriminate|apply T; auto|right; apply A; auto].
Qed.
Lemma latex_known t s : tame_tree t -> apart_tree t -> known_tree t -> latex_of t = Ok s -> forall k, In k (tex_tokens s) -> known k.
Proof.
  intros T A C E. apply (latex_fine known false) with (t := t); auto; try discriminate.
  - intro c. split; exact Logic.I.
  - intros k B. apply base_known, B.
  - intros u V. destruct (tame_words listed false u) as (_ & F & _); [auto|discriminate|apply T; auto|right; apply A; auto|].
    destruct (C u V) as (CI & CT & CO & CE). destruct (T u V) as (TN & TI & TF). destruct (A u V) as (_ & AT).
    assert (MI : forall w s, ~ In w (map (fun c => [c]) unknown_characters) -> first_entry mi_tables w = Some s -> fine known s).
    { intros w s0 N E0. apply (first_values _ _ _ _ mi_known) in E0. cbn [fst snd] in E0. apply orb_true_iff in E0 as [E0|E0].
      - apply known_fine; auto.
      - exfalso. apply N, str_in_spec, E0. }
    assert (MO : forall w s, ~ In w unknown_operators -> first_entry mo_tables w = Some s -> fine known s).
    { intros w s0 N E0. apply (first_values _ _ _ _ mo_known) in E0. cbn [fst snd] in E0. apply orb_true_iff in E0 as [E0|E0].
      - apply known_fine; auto.
      - exfalso. apply N, str_in_spec, E0. }
    split; [|split; auto].
    + intros I s0 E0. apply latex_token in E0 as [[N ->]|[[N ->]|[[N ->]|[N ->]]]]; auto; rewrite N in *.
      * apply (mi_fine known false); auto; try discriminate; [|apply TI; cbn; auto]. intros s1 E1. refine (MI _ _ _ E1).
        intro J. apply in_map_iff in J as (c & E2 & J). apply (CI eq_refl c J). auto.
      * apply mo_fine; auto; [intros s1 E1; exact (MO _ _ (CO eq_refl) E1)|]. apply TI. cbn. auto.
      * apply mn_fine; auto.
      * apply (mtext_fine known false); auto; try discriminate. intros c s1 J E1. refine (MI _ _ _ E1).
        intro K. apply in_map_iff in K as (c' & E2 & K). apply (CT eq_refl c' K).
        assert (Q : In c' (squeeze [c])) by (rewrite <- E2; cbn; auto). apply squeeze_chars in Q as [->|[<-|[]]]; auto.
        exfalso. revert K. clear. cbn. intuition discriminate.
    + intros N S. exfalso. apply CE; auto.
Qed.

(** ** Characters *)
Definition ascii_b (c : N) : bool := ((c =? 10) || (32 <=? c) && (c <=? 126))%N.
Lemma ascii_check c : ascii_b c = true -> ascii_output c.
Proof.
  unfold ascii_b, ascii_output. rewrite orb_true_iff, andb_true_iff, N.eqb_eq, !N.leb_le. intros [H|[H1 H2]]; [left|right]; auto.
Qed.
Definition chars_ok (kv : str * str) : bool :=
  forallb (fun c => ascii_b c || existsb (N.eqb c) (fst kv)) (snd kv)
  || str_in (fst kv) odd_operators && forallb (fun c => ascii_b c || existsb (N.eqb c) odd_characters) (snd kv).
Lemma tables_chars : forallb (forallb chars_ok) five_tables = true.
Proof. vm_compute. reflexivity. Qed.
Lemma mi_chars : forallb (forallb (fun kv : str * str => forallb (fun c => ascii_b c || existsb (N.eqb c) (fst kv)) (snd kv))) mi_tables = true.
Proof. vm_compute. reflexivity. Qed.
Definition accent_ok (w : str) : bool := forallb (fun c => ascii_b c || existsb (N.eqb c) w) (accent_or_font w).
Lemma accents_chars : forallb (fun kv => accent_ok (fst kv)) vowels_with_accents = true.
Proof. vm_compute. reflexivity. Qed.
Lemma fonts_chars : forallb (fun kv => accent_ok (fst kv)) special_font_chars = true.
Proof. vm_compute. reflexivity. Qed.
Lemma mem_check c l : existsb (N.eqb c) l = true -> In c l.
Proof. intro H. apply existsb_exists in H as (x & I & E). apply N.eqb_eq in E. subst x. auto. Qed.
Lemma accent_chars w c : In c (accent_or_font w) -> ascii_output c \/ In c w.
Proof.
  intro I.
  assert (X : accent_ok w = true -> ascii_output c \/ In c w).
  { unfold accent_ok. rewrite forallb_forall. intro H. specialize (H c I). apply orb_true_iff in H as [H|H]; [left; apply ascii_check; auto|right; apply mem_check; auto]. }
  destruct (dget vowels_with_accents w) as [x|] eqn:V.
  - apply X. apply dget_In in V. pose proof accents_chars as Y. rewrite forallb_forall in Y. apply (Y _ V).
  - destruct (dget special_font_chars w) as [x|] eqn:S.
    + apply X. apply dget_In in S. pose proof fonts_chars as Y. rewrite forallb_forall in Y. apply (Y _ S).
    + unfold accent_or_font in I. rewrite V, S in I. auto.
Qed.

Section Chars.
  Variable A : N -> Prop.
  Hypothesis A_ascii : forall c, ascii_output c -> A c.
  Definition drawn (s : str) : Prop := forall c, In c s -> A c.
  Lemma drawn_const s : forallb ascii_b s = true -> drawn s.
  Proof. rewrite forallb_forall. intros H c I. apply A_ascii, ascii_check, H, I. Qed.
  Lemma drawn_app a b : drawn a -> drawn b -> drawn (a ++ b).
  Proof. intros H G c I. apply in_app_or in I as [I|I]; auto. Qed.
  Ltac dr := repeat first [assumption | apply drawn_app | apply drawn_const; reflexivity].
  Lemma drawn_braced s : drawn s -> drawn (braced s).
  Proof. intro D. unfold braced. dr. Qed.
  Lemma drawn_base b s : drawn s -> drawn (base_latex b s).
  Proof. intro D. unfold base_latex. destruct (_ && _); dr. Qed.
  Lemma drawn_long s : drawn s -> drawn (paren_if_long s).
  Proof. intro D. unfold paren_if_long. destruct (Nat.ltb _ _); dr. Qed.
  Lemma drawn_space s : drawn s -> drawn (paren_if_space s).
  Proof. intro D. unfold paren_if_space. destruct (existsb _ _); dr. Qed.
  Lemma drawn_join gap ss : drawn gap -> Forall drawn ss -> drawn (join gap ss).
  Proof. intros G F c I. apply join_chars in I as [I|(w & J & I)]; auto. rewrite Forall_forall in F. apply (F w); auto. Qed.
  Lemma drawn_concat ss : Forall drawn ss -> drawn (concat ss).
  Proof. intros F c I. apply in_concat in I as (w & J & I). rewrite Forall_forall in F. apply (F w); auto. Qed.
  Lemma drawn_squeeze s : drawn s -> drawn (squeeze s).
  Proof. intros D c I. apply squeeze_chars in I as [->|I]; auto. apply A_ascii, ascii_check. reflexivity. Qed.
  Lemma drawn_env name s : forallb ascii_b (lit name) = true -> drawn s -> drawn (env name s).
  Proof. intros N D. apply drawn_const in N. unfold env. dr. Qed.
  Lemma drawn_fence_join seps ss : drawn seps -> Forall drawn ss -> drawn (fence_join (map (fun c => [c]) seps) ss).
  Proof.
    intros P F. revert seps P. induction F as [|s ss M F IH]; intros seps P; [intros c []|].
    destruct ss as [|s2 ss]; [destruct seps as [|? [|]]; exact M|].
    assert (X : forall c, In c seps -> drawn [c]) by (intros c I x [<-|[]]; auto).
    destruct seps as [|c [|c2 seps]].
    - change (drawn (s ++ lit "," ++ fence_join (map (fun c => [c]) []) (s2 :: ss))). dr. auto.
    - change (drawn (s ++ [c] ++ fence_join (map (fun c => [c]) [c]) (s2 :: ss))). dr; auto.
    - change (drawn (s ++ [c] ++ fence_join (map (fun c => [c]) (c2 :: seps)) (s2 :: ss))). dr; auto; [apply X; cbn; auto|].
      apply IH. intros x I. apply P. right. auto.
  Qed.
  Lemma notations_ascii : forallb (fun e : string * (string * string) => forallb ascii_b (lit (fst (snd e))) && forallb ascii_b (lit (snd (snd e)))) notations = true.
  Proof. vm_compute. reflexivity. Qed.
  Lemma drawn_enclosed name s : drawn s -> drawn (enclosed name s).
  Proof.
    intro M. destruct (in_dec str_dec name (map (fun e => lit (fst e)) notations)) as [I|N].
    - apply in_map_iff in I as ([key [b e]] & <- & I). cbn [fst] in *. rewrite (enclosed_known _ _ _ _ I).
      pose proof notations_ascii as X. rewrite forallb_forall in X. specialize (X _ I). cbn [fst snd] in X.
      apply andb_true_iff in X as [X1 X2]. apply drawn_const in X1, X2. dr.
    - rewrite enclosed_unknown by auto. dr.
  Qed.
  Lemma fence_env_ascii op cl : forallb ascii_b (lit (fence_env op cl)) = true.
  Proof. unfold fence_env. repeat match goal with |- context [if ?b then _ else _] => destruct b end; vm_compute; reflexivity. Qed.
  Lemma drawn_default s d : forallb ascii_b (lit d) = true -> drawn s -> drawn (default s d).
  Proof. intros N D. apply drawn_const in N. unfold default. destruct (truthy s); dr. Qed.
  Lemma drawn_scripts p : Forall drawn (pair_list p) -> drawn (scripts_of p) /\ drawn (pre_of p).
  Proof.
    destruct p as [[s t]|]; cbn [pair_list pre_of scripts_of]; intro F; [|split; intros c []]. inversion F as [|? ? F1 F2]; subst. inversion F2; subst.
    apply drawn_braced in F1. assert (drawn (braced t)) by (apply drawn_braced; auto). split; dr.
  Qed.
  Definition drawn_element (u : tree) : Prop :=
    (In (t_name u) token_tags -> forall s, latex_of u = Ok s -> drawn s)
    /\ (t_name u = lit "mfenced" -> forall key, In key ["open"; "close"; "separators"]%string -> drawn (attr (t_attributes u) key)).
  Lemma assembled_drawn inside n v ch a ss out : drawn_element (T n v ch a) -> str_in n token_tags = false ->
    Forall drawn ss -> assembled inside v ch a n ss out -> drawn out.
  Proof.
    intros (_ & TE) N F D.
    assert (Z : drawn (lit " ")) by dr.
    destruct D; try discriminate N;
    repeat match goal with
    | H : Forall drawn (_ :: _) |- _ => let X := fresh "M" in let Y := fresh "F" in inversion H as [|? ? X Y]; subst; clear H
    | H : Forall drawn [] |- _ => clear H
    end;
    repeat match goal with H : drawn ?x |- _ => lazymatch goal with _ : drawn (braced x) |- _ => fail | _ => idtac end; is_var x; assert (drawn (braced x)) by (apply drawn_braced; exact H) end.
    - intros c [].
    - apply drawn_squeeze, drawn_join; auto.
    - apply drawn_join; auto.
    - dr. apply drawn_join; auto.
    - dr. apply drawn_join; auto.
    - apply drawn_join; auto. dr.
    - apply drawn_enclosed, drawn_join; auto.
    - cbv zeta. assert (X : drawn (join (lit " \\" ++ nl) ss)) by (apply drawn_join; auto; dr).
      destruct (_ || _); auto. apply drawn_env; auto.
    - assert (O : drawn (attr a "open")) by (apply (TE eq_refl); cbn; auto). assert (C : drawn (attr a "close")) by (apply (TE eq_refl); cbn; auto).
      unfold fenced_matrix. assert (G : drawn (env (fence_env (attr a "open") (attr a "close")) (nl ++ concat ss ++ nl))).
      { apply drawn_env; [apply fence_env_ascii|]. pose proof (drawn_concat ss F). dr. }
      destruct (String.eqb _ _); dr.
    - assert (O : drawn (attr a "open")) by (apply (TE eq_refl); cbn; auto). assert (C : drawn (attr a "close")) by (apply (TE eq_refl); cbn; auto).
      assert (S : drawn (attr a "separators")) by (apply (TE eq_refl); cbn; auto).
      apply (drawn_default _ "(") in O; [|reflexivity]. apply (drawn_default _ ")") in C; [|reflexivity].
      pose proof (drawn_fence_join _ ss S F). dr.
    - auto.
    - apply drawn_join; auto. dr.
    - dr. apply drawn_base; auto.
    - dr. apply drawn_base; auto.
    - dr. apply drawn_base; auto.
    - dr.
    - dr.
    - dr; apply drawn_long; auto.
    - dr.
    - dr.
    - assert (C : drawn c) by (destruct H as [H|[H|[]]]; injection H as <- <-; dr). dr.
    - apply Forall_app in F0 as [F1 F2]. destruct (drawn_scripts _ F1). destruct (drawn_scripts _ F2). dr. apply drawn_space; auto.
  Qed.
  Lemma latex_drawn t s : (forall u, visits t u -> drawn_element u) -> latex_of t = Ok s -> drawn s.
  Proof.
    intros H E. rewrite latex_of_render in E. revert H.
    enough (forall t inside s, render inside t = Ok s -> (forall u, visits t u -> drawn_element u) -> drawn s) as X by eauto.
    clear t s E. intros t. induction t as [n v ch a IH] using tree_ind'. intros inside s E H.
    apply render_view in E as (ss & R & D). apply rseq_map_forall in R.
    destruct (str_in n token_tags) eqn:N.
    - apply (proj1 (H (T n v ch a) (visits_self _))); [apply str_in_spec; auto|]. apply (token_assembled inside n v ch a ss s D N).
    - apply (assembled_drawn inside n v ch a ss s); auto.
      + apply H. constructor.
      + assert (IV : forall c, In c (visited (T n v ch a)) -> forall inside s, render inside c = Ok s -> drawn s).
        { intros c I i s0 E. rewrite Forall_forall in IH. apply visited_child in I as J. eapply IH; eauto. intros u V. apply H. eapply visits_inner; eauto. }
        revert R IV. generalize (visited (T n v ch a)) as l. clear. intros l R IV. induction R; constructor.
        * eapply IV; cbn; eauto.
        * apply IHR. intros c I. apply IV. cbn; auto.
  Qed.
  Lemma commands_drawn cmds s : forallb (fun c => forallb ascii_b (lit c)) cmds = true -> drawn s -> drawn (in_commands cmds s).
  Proof.
    intros C M. induction cmds as [|c cmds IH]; auto. cbn [forallb] in C. apply andb_true_iff in C as [C1 C2]. specialize (IH C2).
    apply drawn_const in C1. cbn [in_commands]. dr.
  Qed.
  Lemma variant_drawn l d v : forallb (fun e : string * list string => forallb (fun c => forallb ascii_b (lit c)) (snd e)) l = true ->
    forallb (fun c => forallb ascii_b (lit c)) d = true -> forallb (fun c => forallb ascii_b (lit c)) (variant_lookup l d v) = true.
  Proof.
    intros L D. induction l as [|[key c] l IH]; auto. cbn [forallb] in L. apply andb_true_iff in L as [L1 L2].
    cbn [variant_lookup]. destruct (str_eqb v (lit key)); auto.
  Qed.
  Lemma mi_drawn v a : drawn v -> drawn (mi_latex v a).
  Proof.
    intro D. apply drawn_squeeze in D. unfold mi_latex. apply commands_drawn; [apply variant_drawn; vm_compute; reflexivity|].
    unfold symbol. destruct (first_entry mi_tables (squeeze v)) as [s|] eqn:E.
    - apply (first_values _ _ _ _ mi_chars) in E. cbn [fst snd] in E. rewrite forallb_forall in E. intros c I. specialize (E c I).
      apply orb_true_iff in E as [E|E]; [apply A_ascii, ascii_check; auto|apply D, mem_check; auto].
    - intros c I. apply accent_chars in I as [I|I]; auto.
  Qed.
  Lemma mtext_drawn v a : drawn v -> drawn (mtext_latex v a).
  Proof.
    intro D. unfold mtext_latex. apply drawn_concat. apply Forall_forall. intros s I. apply in_map_iff in I as ([b w] & <- & I).
    assert (DW : drawn w).
    { intros c J. apply D. rewrite <- (runs_concat v). apply in_concat. exists w. split; auto. apply in_map_iff. exists (b, w). auto. }
    cbn [fst snd]. destruct b; [|apply mi_drawn; auto]. apply commands_drawn; auto. apply variant_drawn; vm_compute; reflexivity.
  Qed.
  Lemma symbol_drawn ts w : incl ts five_tables -> (In w odd_operators -> drawn odd_characters) -> drawn w -> drawn (symbol ts w).
  Proof.
    intros T O D. unfold symbol. destruct (first_entry ts w) as [s|] eqn:E.
    - apply (first_values chars_ok) in E.
      2: { apply forallb_forall. intros d J. pose proof tables_chars as X. rewrite forallb_forall in X. apply X, T, J. }
      unfold chars_ok in E. cbn [fst snd] in E. intros c I. apply orb_true_iff in E as [E|E].
      + rewrite forallb_forall in E. specialize (E c I). apply orb_true_iff in E as [E|E]; [apply A_ascii, ascii_check; auto|apply D, mem_check; auto].
      + apply andb_true_iff in E as [K E]. apply str_in_spec in K. rewrite forallb_forall in E. specialize (E c I).
        apply orb_true_iff in E as [E|E]; [apply A_ascii, ascii_check; auto|apply (O K), mem_check; auto].
    - intros c I. apply accent_chars in I as [I|I]; auto.
  Qed.
  Lemma token_drawn u s : In (t_name u) token_tags -> drawn (t_value u) ->
    (t_name u = lit "mo" -> In (squeeze (t_value u)) odd_operators -> drawn odd_characters) -> latex_of u = Ok s -> drawn s.
  Proof.
    intros I D O E. pose proof (drawn_squeeze _ D) as DS. apply latex_token in E as [[N ->]|[[N ->]|[[N ->]|[N ->]]]]; auto.
    - apply mi_drawn; auto.
    - unfold mo_latex. apply symbol_drawn; auto. intros x J. cbn in *. tauto.
    - unfold mn_latex. destruct (first_entry _ _) as [s|] eqn:E; auto.
      assert (X : forallb (forallb (fun kv : str * str => forallb (fun c => ascii_b c || existsb (N.eqb c) (fst kv)) (snd kv))) [math_number_by_glyph] = true)
        by (vm_compute; reflexivity).
      apply (first_values _ _ _ _ X) in E. cbn [fst snd] in E. rewrite forallb_forall in E. intros c J. specialize (E c J).
      apply orb_true_iff in E as [E|E]; [apply A_ascii, ascii_check; auto|apply DS, mem_check; auto].
    - apply mtext_drawn; auto.
  Qed.
End Chars.
Lemma latex_characters t s : latex_of t = Ok s -> forall c, In c s -> ascii_output c \/ from_input t c \/ In c odd_characters.
Proof.
  apply (latex_drawn (fun c => ascii_output c \/ from_input t c \/ In c odd_characters)); [auto|]. intros u V. split.
  - intros I s0 E. refine (token_drawn _ _ u s0 I _ _ E); [auto| |].
    + intros c J. right. left. exists u. split; auto.
    + intros _ _ c J. auto.
  - intros N key K c J. right. left. exists u. split; auto. right. split; [auto|exists key; auto].
Qed.
Lemma latex_regular t s : regular_tree t -> latex_of t = Ok s -> forall c, In c s -> ascii_output c \/ from_input t c.
Proof.
  intros R. apply (latex_drawn (fun c => ascii_output c \/ from_input t c)); [auto|]. intros u V. split.
  - intros I s0 E. refine (token_drawn _ _ u s0 I _ _ E); [auto| |].
    + intros c J. right. exists u. split; auto.
    + intros N O. exfalso. apply (R u V N O).
  - intros N key K c J. right. exists u. split; auto. right. split; [auto|exists key; auto].
Qed.
Lemma document_characters (P : tree -> N -> Prop) d s : (forall t s c, In t (math_trees d) -> latex_of t = Ok s -> In c s -> P t c) ->
  document_latex d = Ok s -> forall c, In c s -> exists t, In t (math_trees d) /\ P t c.
Proof.
  unfold document_latex. destruct (rseq (map latex_of (math_trees d))) as [ss|] eqn:R; [|discriminate]. cbn [rbind]. intros H E c I.
  assert (X : s = concat ss) by congruence. subst s. clear E. apply rseq_map_forall in R. revert R H I. generalize (math_trees d). intros l R H I.
  induction R as [|t s l ss E R IH]; [destruct I|]. cbn [concat] in I. apply in_app_or in I as [I|I].
  - exists t. split; [cbn; auto|]. apply (H t s); cbn; auto.
  - destruct IH as (t' & J & K); auto; [intros t0 s0 c0 J; apply H; cbn; auto|]. exists t'. cbn. auto.
Qed.

(** ** Deciding the conditions *)
Definition free_b (s : str) : bool := negb (existsb (N.eqb backslash) s).
Lemma free_check s : free_b s = true -> backslash_free s.
Proof.
  unfold free_b. intros H I. apply negb_true_iff in H. assert (X : existsb (N.eqb backslash) s = true) by (apply existsb_exists; exists backslash; split; [auto|apply N.eqb_refl]).
  congruence.
Qed.
Definition tame_b (u : tree) : bool :=
  implb (str_eqb (t_name u) (lit "mn")) (free_b (t_value u))
  && implb (str_in (t_name u) [lit "mi"; lit "mo"]) (free_b (t_value u) || match t_value u with [c] => true | _ => false end)
  && implb (str_eqb (t_name u) (lit "mfenced")) (forallb (fun k => free_b (attr (t_attributes u) k)) ["open"; "close"; "separators"]).
Lemma implb_elim a b : implb a b = true -> a = true -> b = true.
Proof. intros H ->. exact H. Qed.
Lemma tame_check t : forallb tame_b (preorder t) = true -> tame_tree t.
Proof.
  rewrite forallb_forall. intros H u V. apply visits_preorder, H in V. unfold tame_b in V. apply andb_true_iff in V as [V H3]. apply andb_true_iff in V as [H1 H2].
  split; [|split].
  - intro N. apply free_check. apply (implb_elim _ _ H1). rewrite N. apply str_eqb_refl.
  - intro N. apply str_in_spec in N. apply (implb_elim _ _ H2) in N. apply orb_true_iff in N as [N|N]; [left; apply free_check; auto|].
    right. destruct (t_value u) as [|c [|]]; try discriminate N. exists c. apply single_shows.
  - intros N key K. apply free_check. rewrite N, str_eqb_refl in H3. cbn [implb] in H3. rewrite forallb_forall in H3. apply H3. auto.
Qed.
Definition first_b (s : str) : bool := match s with c :: _ => negb (ascii_letter c) | [] => true end.
Lemma first_check s : first_b s = true -> ~ begins_with_letter s.
Proof. intros H (c & s' & -> & L). cbn in H. rewrite L in H. discriminate. Qed.
Definition apart_b (u : tree) : bool :=
  implb (str_eqb (t_name u) (lit "mfenced"))
    (first_b (attr (t_attributes u) "open") && first_b (attr (t_attributes u) "close")
     && forallb (fun c => negb (ascii_letter c)) (attr (t_attributes u) "separators")
     && implb (existsb has_table (t_children u)) (Nat.leb (length (t_children u)) 1))
  && implb (str_eqb (t_name u) (lit "mtext")) (forallb (fun c => negb (existsb (N.eqb c) letter_like)) (t_value u)).
Lemma apart_check t : forallb apart_b (preorder t) = true -> apart_tree t.
Proof.
  rewrite forallb_forall. intros H u V. apply visits_preorder, H in V. unfold apart_b in V. apply andb_true_iff in V as [H1 H2]. split.
  - intro N. rewrite N, str_eqb_refl in H1. cbn [implb] in H1. repeat rewrite andb_true_iff in H1. destruct H1 as [[[O C] S] TB].
    split; [apply first_check; auto|]. split; [apply first_check; auto|]. split.
    + intros c I. rewrite forallb_forall in S. apply negb_true_iff, S, I.
    + intro X. apply (implb_elim _ _ TB) in X. apply Nat.leb_le. auto.
  - intros N c I J. rewrite N, str_eqb_refl in H2. cbn [implb] in H2. rewrite forallb_forall in H2. specialize (H2 c I). apply negb_true_iff in H2.
    assert (X : existsb (N.eqb c) letter_like = true) by (apply existsb_exists; exists c; split; [auto|apply N.eqb_refl]). congruence.
Qed.
Definition known_e (u : tree) : bool :=
  implb (str_eqb (t_name u) (lit "mi")) (forallb (fun c => negb (str_eqb (squeeze (t_value u)) [c])) unknown_characters)
  && implb (str_eqb (t_name u) (lit "mtext")) (forallb (fun c => negb (existsb (N.eqb c) (t_value u))) unknown_characters)
  && implb (str_eqb (t_name u) (lit "mo")) (negb (str_in (squeeze (t_value u)) unknown_operators))
  && implb (str_eqb (t_name u) (lit "menclose")) (negb (str_in (attr (t_attributes u) "notation") [lit "verticalstrike"; lit "horizontalstrike"])).
Lemma known_tree_check t : forallb known_e (preorder t) = true -> known_tree t.
Proof.
  rewrite forallb_forall. intros H u V. apply visits_preorder, H in V. unfold known_e in V. repeat rewrite andb_true_iff in V. destruct V as [[[H1 H2] H3] H4].
  split; [|split; [|split]]; intro N; rewrite N, str_eqb_refl in *; cbn [implb] in *.
  - intros c I E. rewrite forallb_forall in H1. specialize (H1 c I). rewrite E, str_eqb_refl in H1. discriminate.
  - intros c I J. rewrite forallb_forall in H2. specialize (H2 c I). apply negb_true_iff in H2.
    assert (X : existsb (N.eqb c) (t_value u) = true) by (apply existsb_exists; exists c; split; [auto|apply N.eqb_refl]). congruence.
  - intro I. apply str_in_spec in I. rewrite I in H3. discriminate.
  - intro I. apply str_in_spec in I. rewrite I in H4. discriminate.
Qed.
Definition regular_b (u : tree) : bool := implb (str_eqb (t_name u) (lit "mo")) (negb (str_in (squeeze (t_value u)) odd_operators)).
Lemma regular_check t : forallb regular_b (preorder t) = true -> regular_tree t.
Proof.
  rewrite forallb_forall. intros H u V N I. apply visits_preorder, H in V. unfold regular_b in V. rewrite N, str_eqb_refl in V. cbn [implb] in V.
  apply str_in_spec in I. rewrite I in V. discriminate.
Qed.
Definition uses (w : str) (t : tree) : bool :=
  forallb tame_b (preorder t) && forallb apart_b (preorder t)
  && match latex_of t with Ok s => existsb (fun k => match k with Word x => str_eqb x w | _ => false end) (tex_tokens s) | Raise _ => false end.
Lemma uses_check w t : uses w t = true -> tame_tree t /\ apart_tree t /\ exists s, latex_of t = Ok s /\ In (Word w) (tex_tokens s).
Proof.
  unfold uses. rewrite !andb_true_iff. intros [[H1 H2] H3]. split; [apply tame_check; auto|]. split; [apply apart_check; auto|].
  destruct (latex_of t) as [s|]; [|discriminate]. exists s. split; auto. apply existsb_exists in H3 as (k & I & E). destruct k as [x|x|x]; try discriminate E.
  apply str_eqb_eq in E. subst x. auto.
Qed.
