(** Counting marks (C53, C54). *)
From Coq Require Import String Permutation.
From Verif Require Export SpecMarks LemGlyphs LemOrder LemTeX LemTeX2.
Local Open Scope string_scope.
Local Open Scope list_scope.

(** ** Joining texts *)
Definition neat (s : str) : Prop := mode None s <> Some [] /\ no_escaped_space (tex_tokens s).
Lemma tidy_neat s : tidy s <-> neat s.
Proof. unfold tidy, neat. rewrite unfinished_mode. reflexivity. Qed.
Lemma tokens_app_split a b : mode None a <> Some [] ->
  tex_tokens (a ++ b) = tex_tokens a ++ tex_tokens b
  \/ exists t w l r, tex_tokens a = t ++ [Word w] /\ letters l /\ tex_tokens b = map Chr l ++ r /\ tex_tokens (a ++ b) = t ++ Word (w ++ l) :: r.
Proof.
  intro M. destruct (mode None a) as [w|] eqn:E; [|left; apply tokens_app_none; auto].
  assert (W : w <> []) by (intros ->; auto).
  destruct (letters_split b) as (l & b' & -> & L & H). right. exists (done None a), w, l, (tex_tokens b').
  repeat split; auto.
  - rewrite tokens_done, E. reflexivity.
  - apply tokens_letters; auto.
  - apply tokens_glued; auto.
Qed.
Lemma count_letters k l : In k marks -> letters l -> count_occ token_dec (map Chr l) k = 0.
Proof.
  intros K L. apply count_occ_not_In. intro I. apply in_map_iff in I as (c & <- & I). apply (proj1 (Forall_forall _ _) L) in I.
  unfold marks in K. cbn in K. destruct K as [K|[K|[K|[K|[K|[]]]]]]; try discriminate K; injection K as <-; discriminate I.
Qed.
Lemma count_word k w l : In k marks -> count_occ token_dec (Word w :: l) k = count_occ token_dec l k.
Proof. intro K. apply count_occ_cons_neq. intros <-. cbn in K. intuition discriminate. Qed.
Lemma count_app k a b : In k marks -> neat a -> count k (a ++ b) = count k a + count k b.
Proof.
  intros K [M _]. unfold count. destruct (tokens_app_split a b M) as [E|(t & w & l & r & E1 & L & E2 & E3)].
  - rewrite E. apply count_occ_app.
  - rewrite E1, E2, E3, !count_occ_app, !count_word, (count_letters k l) by auto. cbn [count_occ]. lia.
Qed.
Lemma mode_nonempty b : forall w, w <> [] -> mode None b <> Some [] -> mode (Some w) b <> Some [].
Proof.
  induction b as [|c b IH]; intros w W M; cbn [mode] in *; [congruence|].
  destruct (ascii_letter c) eqn:A.
  - apply IH; [destruct w; discriminate|]. rewrite letter_not_backslash in M by auto. auto.
  - destruct w; [congruence|]. auto.
Qed.
Lemma neat_app a b : neat a -> neat b -> neat (a ++ b).
Proof.
  intros [M1 S1] [M2 S2]. split.
  - rewrite mode_app. destruct (mode None a) as [w|] eqn:E; auto. apply mode_nonempty; auto. intros ->. auto.
  - intros c I. destruct (tokens_app_split a b M1) as [E|(t & w & l & r & E1 & L & E2 & E3)].
    + rewrite E in I. apply in_app_or in I as [I|I]; auto.
    + rewrite E3 in I. apply in_app_or in I as [I|[I|I]]; [|discriminate|].
      * apply S1. rewrite E1. apply in_or_app. auto.
      * apply S2. rewrite E2. apply in_or_app. auto.
Qed.

(** A text with its number of marks. *)
Definition marked (k : token) (s : str) (x : nat) : Prop := neat s /\ count k s = x.
Lemma marked_app k a b x y : In k marks -> marked k a x -> marked k b y -> marked k (a ++ b) (x + y).
Proof. intros K [N1 C1] [N2 C2]. split; [apply neat_app; auto|]. rewrite count_app; auto. Qed.
Lemma marked_eq k s x y : x = y -> marked k s x -> marked k s y.
Proof. intros ->. auto. Qed.
Definition neat_b (s : str) : bool :=
  match mode None s with Some [] => false | _ => true end && forallb (fun t => match t with Sym c => negb (is_space c) | _ => true end) (tex_tokens s).
Lemma neat_check s : neat_b s = true -> neat s.
Proof.
  unfold neat_b. rewrite andb_true_iff, forallb_forall. intros [M S]. split.
  - destruct (mode None s) as [[|]|]; congruence.
  - intros c I. apply negb_true_iff. apply (S _ I).
Qed.
Definition constant (s : str) : bool := neat_b s && forallb (fun k => Nat.eqb (count k s) 0) marks.
Lemma marked_constant k s : In k marks -> constant s = true -> marked k s 0.
Proof.
  unfold constant. rewrite andb_true_iff, forallb_forall. intros K [N C]. split; [apply neat_check; auto|]. apply Nat.eqb_eq. auto.
Qed.
Lemma marked_markless k s : In k marks -> markless s -> marked k s 0.
Proof.
  intros K M. destruct (tokens_plain s) as [T MD].
  { intros c I ->. apply (M _ I). cbn. auto 6. }
  split; [split|].
  - rewrite MD. discriminate.
  - rewrite T. intros c I. apply in_map_iff in I as (x & E & _). discriminate.
  - unfold count. rewrite T. apply count_occ_not_In. intro I. apply in_map_iff in I as (c & <- & I). apply (M _ I).
    cbn in K. destruct K as [K|[K|[K|[K|[K|[]]]]]]; try discriminate K; injection K as <-; cbn; auto.
Qed.
Lemma marked_squeeze k s x : In k marks -> marked k s x -> marked k (squeeze s) x.
Proof.
  intros K [[M S] C]. pose proof (tokens_squeeze (length s) s (le_n _) S) as Q. split; [split|].
  - rewrite <- unfinished_mode. intros (ts & E). apply M, unfinished_mode.
    (* the last token of the squeezed text is the last but blanks *)
    clear S C. unfold unfinished. revert ts E. 
    assert (X : forall a b, spaced a b -> forall ts, b = ts ++ [Word []] -> In (Word []) a).
    { clear. intros a b S ts E. apply (spaced_words a b S); [reflexivity|]. rewrite E. apply in_or_app. cbn. auto. }
    intros ts E. apply X with (ts := ts) in Q; auto.
    assert (Y : forall s m, (m = None \/ exists w, m = Some w) -> In (Word []) (done m s) -> False).
    { clear. induction s as [|c s IH]; intros m H; [intros []|]. cbn [done].
      assert (Z : forall t l, t <> Word [] -> (In (Word []) l -> False) -> In (Word []) (t :: l) -> False)
        by (intros t l T L [I|I]; auto).
      destruct m as [w|].
      - destruct (ascii_letter c); [apply IH; eauto|]. destruct w as [|x w]; apply Z; try discriminate; [apply IH; auto|].
        destruct (c =? backslash)%N; [apply IH; eauto|]. apply Z; [discriminate|]. apply IH; auto.
      - destruct (c =? backslash)%N; [apply IH; eauto|]. apply Z; [discriminate|]. apply IH; auto. }
    rewrite tokens_done in Q. apply in_app_or in Q as [Q|Q]; [exfalso; exact (Y s None (or_introl eq_refl) Q)|].
    exists (done None s). rewrite tokens_done. revert Q. destruct (mode None s) as [w|]; cbn [flush]; [|intros []].
    intros [Q|[]]. injection Q as ->. reflexivity.
  - intros c I. apply S. apply (spaced_words _ _ Q); auto.
  - rewrite <- C. unfold count. clear M S C. induction Q as [|t a b Q IH|c a b B Q IH|c a b B Q IH]; auto.
    + cbn [count_occ]. rewrite IH. reflexivity.
    + rewrite IH. symmetry. apply count_occ_cons_neq. intros <-. cbn in K. destruct K as [K|[K|[K|[K|[K|[]]]]]]; try discriminate K; injection K as <-; discriminate B.
    + rewrite !count_occ_cons_neq; auto; intros <-; cbn in K; destruct K as [K|[K|[K|[K|[K|[]]]]]]; try discriminate K; injection K as <-; discriminate B.
Qed.

(** ** Elements *)
Section Marks.
  Variable k : token.
  Hypothesis K : In k marks.
  Ltac const := apply marked_constant; [exact K|vm_compute; reflexivity].
  Lemma marked_nil : marked k [] 0.
  Proof. const. Qed.
  Lemma marked_around b s e x : constant b = true -> constant e = true -> marked k s x -> marked k (b ++ s ++ e) x.
  Proof.
    intros B E M. apply marked_eq with (0 + (x + 0)); [lia|]. apply marked_app; auto; [apply marked_constant; auto|].
    apply marked_app; auto. apply marked_constant; auto.
  Qed.
  Lemma marked_before b s x : constant b = true -> marked k s x -> marked k (b ++ s) x.
  Proof. intros B M. apply (marked_app k b s 0 x); auto. apply marked_constant; auto. Qed.
  Lemma marked_braced s x : marked k s x -> marked k (braced s) x.
  Proof. intro M. unfold braced. apply marked_around; auto. Qed.
  Lemma marked_paren s x : marked k s x -> marked k (lit "\left(" ++ s ++ lit "\right)") x.
  Proof. intro M. apply marked_around; auto. Qed.
  Lemma marked_base b s x : marked k s x -> marked k (base_latex b s) x.
  Proof. intro M. unfold base_latex. destruct (_ && _); auto. apply marked_paren; auto. Qed.
  Lemma marked_long s x : marked k s x -> marked k (paren_if_long s) x.
  Proof. intro M. unfold paren_if_long. destruct (Nat.ltb _ _); auto. apply marked_paren; auto. Qed.
  Lemma marked_space s x : marked k s x -> marked k (paren_if_space s) x.
  Proof. intro M. unfold paren_if_space. destruct (existsb _ _); auto. apply marked_paren; auto. Qed.
  Lemma marked_join gap g ss xs : marked k gap g -> Forall2 (marked k) ss xs -> marked k (join gap ss) (list_sum xs + g * (length ss - 1)).
  Proof.
    intros G F. induction F as [|s x ss xs M F IH]; [apply marked_eq with 0; [cbn; lia|apply marked_nil]|].
    destruct F as [|s2 x2 ss xs M2 F].
    - apply marked_eq with x; [cbn; lia|auto].
    - change (join gap (s :: s2 :: ss)) with (s ++ gap ++ join gap (s2 :: ss)).
      apply marked_eq with (x + (g + (list_sum (x2 :: xs) + g * (length (s2 :: ss) - 1)))); [cbn [length list_sum fold_right]; unfold list_sum; cbn [fold_right]; lia|].
      apply marked_app; auto. apply marked_app; auto.
  Qed.
  Lemma marked_join0 gap ss xs : constant gap = true -> Forall2 (marked k) ss xs -> marked k (join gap ss) (list_sum xs).
  Proof. intros G F. apply marked_eq with (list_sum xs + 0 * (length ss - 1)); [lia|]. apply marked_join; auto. apply marked_constant; auto. Qed.
  Lemma marked_concat ss xs : Forall2 (marked k) ss xs -> marked k (concat ss) (list_sum xs).
  Proof. intro F. induction F; [apply marked_nil|]. apply (marked_app k x (concat l) y (list_sum l')); auto. Qed.
  Lemma marked_env name s x : constant (lit name) = true -> marked k s x -> marked k (env name s) x.
  Proof.
    intros N M. unfold env. apply marked_before; [reflexivity|]. apply marked_before; auto. apply marked_before; [reflexivity|].
    apply marked_eq with (x + 0); [lia|]. apply marked_app; auto. apply marked_before; [reflexivity|]. apply marked_before; auto. const.
  Qed.
  Lemma marked_fence_join ss xs : Forall2 (marked k) ss xs -> forall seps, markless seps ->
    marked k (fence_join (map (fun c => [c]) seps) ss) (list_sum xs).
  Proof.
    induction 1 as [|s x ss xs M F IH]; intros seps P; [apply marked_nil|].
    destruct F as [|s2 x2 ss xs M2 F]; [apply marked_eq with x; [cbn; lia|]; destruct seps as [|? [|]]; exact M|].
    change (list_sum (x :: x2 :: xs)) with (x + (0 + list_sum (x2 :: xs))).
    destruct seps as [|c [|c2 seps]].
    - change (marked k (s ++ lit "," ++ fence_join (map (fun c => [c]) []) (s2 :: ss)) (x + (0 + list_sum (x2 :: xs)))).
      apply marked_app; auto. apply marked_app; auto. const.
    - change (marked k (s ++ [c] ++ fence_join (map (fun c => [c]) [c]) (s2 :: ss)) (x + (0 + list_sum (x2 :: xs)))).
      apply marked_app; auto. apply marked_app; auto. apply marked_markless; auto.
    - change (marked k (s ++ [c] ++ fence_join (map (fun c => [c]) (c2 :: seps)) (s2 :: ss)) (x + (0 + list_sum (x2 :: xs)))).
      apply marked_app; auto. apply marked_app; auto.
      + apply marked_markless; auto. intros y [<-|[]]. apply P. cbn. auto.
      + apply IH. intros y I. apply P. cbn. auto.
  Qed.
  Lemma notations_constant : forallb (fun e : string * (string * string) => constant (lit (fst (snd e))) && constant (lit (snd (snd e)))) notations = true.
  Proof. vm_compute. reflexivity. Qed.
  Lemma marked_enclosed name s x : marked k s x -> marked k (enclosed name s) x.
  Proof.
    intro M. destruct (in_dec str_dec name (map (fun e => lit (fst e)) notations)) as [I|N].
    - apply in_map_iff in I as ([key [b e]] & <- & I). cbn [fst] in *. rewrite (enclosed_known _ _ _ _ I).
      pose proof notations_constant as X. rewrite forallb_forall in X. specialize (X _ I). cbn [fst snd] in X.
      apply andb_true_iff in X as [X1 X2]. apply marked_around; auto.
    - rewrite enclosed_unknown by auto. apply marked_around; auto.
  Qed.
  Lemma marked_default s d : markless s -> constant (lit d) = true -> marked k (default s d) 0.
  Proof. intros M C. unfold default. destruct (truthy s); [apply marked_markless; auto|apply marked_constant; auto]. Qed.
  Lemma marked_fenced op cl s x : marked k op 0 -> marked k cl 0 -> marked k s x ->
    marked k (lit "\left" ++ op ++ s ++ lit "\right" ++ cl) x.
  Proof.
    intros O C M. apply marked_before; [reflexivity|]. apply (marked_app k op _ 0 x); auto. apply marked_eq with (x + 0); [lia|].
    apply marked_app; auto. apply marked_before; auto.
  Qed.
  Lemma fence_env_constant op cl : constant (lit (fence_env op cl)) = true.
  Proof. unfold fence_env. repeat match goal with |- context [if ?b then _ else _] => destruct b end; vm_compute; reflexivity. Qed.
  Lemma marked_scripts p xs : Forall2 (marked k) (pair_list p) xs -> marked k (scripts_of p) (list_sum xs).
  Proof.
    destruct p as [[s t]|]; cbn [pair_list scripts_of]; intro F; inversion F as [|? x ? ? M1 F1]; subst; [|apply marked_nil].
    inversion F1 as [|? y ? ? M2 F2]; subst. inversion F2; subst. apply marked_before; [reflexivity|].
    apply marked_eq with (x + y); [cbn; lia|]. apply marked_app; auto; [apply marked_braced; auto|].
    apply marked_before; [reflexivity|]. apply marked_braced; auto.
  Qed.
  Lemma marked_pre p xs : Forall2 (marked k) (pair_list p) xs -> marked k (pre_of p) (list_sum xs).
  Proof.
    destruct p as [[s t]|]; cbn [pair_list pre_of scripts_of]; intro F; inversion F as [|? x ? ? M1 F1]; subst; [|apply marked_nil].
    inversion F1 as [|? y ? ? M2 F2]; subst. inversion F2; subst. rewrite app_assoc. apply marked_before; [reflexivity|].
    apply marked_eq with (x + y); [cbn; lia|]. apply marked_app; auto; [apply marked_braced; auto|].
    apply marked_before; [reflexivity|]. apply marked_braced; auto.
  Qed.
  Definition structural (n : str) (ch : list tree) : nat :=
    if str_eqb n (lit "mtr") && (if token_dec k ampersand then true else false) then length ch - 1
    else if str_eqb n (lit "mtable") && (if token_dec k double_backslash then true else false) then length ch - 1
    else 0.
  Lemma assembled_marked inside n v ch a ss out xs : tidy_element (T n v ch a) -> str_in n token_tags = false ->
    length ss = length (visited (T n v ch a)) ->
    Forall2 (marked k) ss xs -> assembled inside v ch a n ss out -> marked k out (structural n ch + list_sum xs).
  Proof.
    intros [_ TE] N L F A.
    assert (Z : forall x, structural n ch = 0 -> marked k out x -> x = list_sum xs -> marked k out (structural n ch + list_sum xs))
      by (intros x E M <-; rewrite E; auto).
    destruct A; try discriminate N;
    repeat match goal with
    | H : Forall2 (marked k) (_ :: _) _ |- _ => let X := fresh "M" in let Y := fresh "F" in inversion H as [|? ? ? ? X Y]; subst; clear H
    | H : Forall2 (marked k) [] _ |- _ => inversion H; subst; clear H
    end.
    - eapply Z; [reflexivity|apply marked_nil|reflexivity].
    - eapply Z; [reflexivity|apply marked_squeeze; auto; apply marked_join0; eauto|reflexivity].
    - eapply Z; [|apply marked_join0; eauto|reflexivity]. unfold structural. rewrite !(row_eqb n) by (auto; discriminate). reflexivity.
    - eapply Z; [reflexivity|apply marked_before, marked_braced, marked_join0; eauto|reflexivity].
    - eapply Z; [reflexivity|apply marked_before, marked_braced, marked_join0; eauto|reflexivity].
    - (* mtr *) change (visited (T (lit "mtr") v ch a)) with ch in L.
      assert (G : marked k (lit " & ") (if token_dec k ampersand then 1 else 0)).
      { clear - K. unfold marks in K. cbn in K. destruct K as [<-|[<-|[<-|[<-|[<-|[]]]]]]; (split; [apply neat_check|]; vm_compute; reflexivity). }
      pose proof (marked_join _ _ ss xs G F) as J. revert J. unfold structural. change (str_eqb (lit "mtr") (lit "mtr")) with true.
      change (str_eqb (lit "mtr") (lit "mtable")) with false. rewrite <- L. destruct (token_dec k ampersand); cbn [andb]; apply marked_eq; lia.
    - eapply Z; [reflexivity|apply marked_enclosed, marked_join0; eauto|reflexivity].
    - (* mtable *) change (visited (T (lit "mtable") v ch a)) with ch in L.
      assert (G : marked k (lit " \\" ++ nl) (if token_dec k double_backslash then 1 else 0)).
      { clear - K. unfold marks in K. cbn in K. destruct K as [<-|[<-|[<-|[<-|[<-|[]]]]]]; (split; [apply neat_check|]; vm_compute; reflexivity). }
      pose proof (marked_join _ _ ss xs G F) as J.
      assert (J2 : marked k (join (lit " \\" ++ nl) ss) (structural (lit "mtable") ch + list_sum xs)).
      { revert J. unfold structural. change (str_eqb (lit "mtable") (lit "mtr")) with false.
        change (str_eqb (lit "mtable") (lit "mtable")) with true. rewrite <- L. destruct (token_dec k double_backslash); cbn [andb]; apply marked_eq; lia. }
      cbv zeta. destruct (_ || _); auto. apply marked_env; auto.
    - (* matrix *) eapply Z; [reflexivity| |reflexivity]. unfold fenced_matrix.
      assert (G : marked k (env (fence_env (attr a "open") (attr a "close")) (nl ++ concat ss ++ nl)) (list_sum xs)).
      { apply marked_env; [apply fence_env_constant|]. apply marked_around; auto. apply marked_concat; auto. }
      destruct (String.eqb _ _); auto. apply marked_fenced; auto; apply marked_markless; auto; apply (TE eq_refl); cbn; auto.
    - (* fenced *) eapply Z; [reflexivity| |reflexivity].
      apply marked_fenced; [apply marked_default; auto; apply (TE eq_refl); cbn; auto|apply marked_default; auto; apply (TE eq_refl); cbn; auto|].
      apply marked_fence_join; auto. apply (TE eq_refl); cbn; auto.
    - eapply Z; [reflexivity|eauto|cbn; lia].
    - eapply Z; [reflexivity|apply marked_join0; eauto|reflexivity].
    - eapply Z; [reflexivity|apply marked_app; [auto|apply marked_base; eauto|apply marked_before, marked_braced; eauto]|cbn; lia].
    - eapply Z; [reflexivity|apply marked_app; [auto|apply marked_base; eauto|apply marked_before, marked_braced; eauto]|cbn; lia].
    - eapply Z; [reflexivity|apply marked_app; [auto|apply marked_base; eauto|apply marked_before; [reflexivity|];
        apply marked_app; [auto|apply marked_braced; eauto|apply marked_before, marked_braced; eauto]]|cbn; lia].
    - eapply Z; [reflexivity|apply marked_app; [auto|eauto|apply marked_before; [reflexivity|];
        apply marked_app; [auto|apply marked_braced; eauto|apply marked_before, marked_braced; eauto]]|cbn; lia].
    - eapply Z; [reflexivity|apply marked_before; [reflexivity|]; apply marked_app; [auto|apply marked_braced; eauto|apply marked_braced; eauto]|cbn; lia].
    - eapply Z; [reflexivity|apply marked_app; [auto|apply marked_long; eauto|apply marked_before, marked_long; eauto]|cbn; lia].
    - eapply Z; [reflexivity|apply marked_before; [reflexivity|]; apply marked_app; [auto|eauto|apply marked_before, marked_braced; eauto]|cbn; lia].
    - eapply Z; [|apply marked_app; [auto|eauto|apply marked_braced; eauto]|cbn; lia].
      cbn [map] in H. destruct H as [<-|[<-|[]]]; reflexivity.
    - destruct H as [H|[H|[]]]; injection H as <- <-;
      (eapply Z; [reflexivity|apply marked_before; [reflexivity|]; apply marked_app; [auto|apply marked_braced; eauto|apply marked_braced; eauto]|cbn; lia]).
    - apply Forall2_app_inv_l in F0 as (x1 & x2 & F1 & F2 & ->).
      eapply Z; [reflexivity|apply marked_app; [auto|apply marked_pre; eauto|apply marked_app; [auto|apply marked_space; eauto|apply marked_scripts; eauto]]|].
      change (list_sum (y :: x1 ++ x2)) with (y + list_sum (x1 ++ x2)). rewrite list_sum_app. lia.
  Qed.
End Marks.

(** ** Trees *)
Lemma arrange_permuted n v a ch : str_in n token_tags = false -> own_fault (T n v ch a) = None ->
  Permutation (arrange n a ch ch) (visited (T n v ch a)).
Proof.
  intros N F. unfold visited. change (map lit ["mphantom"; "mi"; "mo"; "mn"; "mtext"]) with (lit "mphantom" :: token_tags).
  unfold str_in at 1. cbn [existsb]. change (existsb (str_eqb n) token_tags) with (str_in n token_tags). rewrite N, orb_false_r.
  destruct (str_eqb n (lit "mmultiscripts")) eqn:M.
  - apply str_eqb_eq in M. subst n. cbn [own_fault] in F. change (required exact_counts (lit "mmultiscripts")) with (@None nat) in F. cbn iota in F.
    change (str_eqb (lit "mmultiscripts") (lit "mmultiscripts")) with true in F.
    destruct (Nat.leb_spec 3 (length ch)) as [L|L]; [|discriminate F]. rewrite arrange_multi by auto.
    change (str_eqb (lit "mmultiscripts") (lit "mphantom")) with false. change (str_eqb (lit "mmultiscripts") (lit "maction")) with false. cbn [andb].
    assert (X : firstn 1 ch = pick ch 0) by (destruct ch; reflexivity). rewrite X. rewrite !app_assoc. apply Permutation_app_tail, Permutation_app_comm.
  - unfold arrange. rewrite M. destruct (str_eqb n (lit "mphantom")); [constructor|]. destruct (_ && _); [apply Permutation_refl|].
    destruct (str_in n (map lit _)); [|apply Permutation_refl]. apply Permutation_sym, Permutation_rev.
Qed.
Lemma sum_permuted l l' : Permutation l l' -> list_sum l = list_sum l'.
Proof. unfold list_sum. induction 1; cbn [fold_right]; lia. Qed.
Lemma sum_concat {A} (f : A -> nat) ls : list_sum (map f (concat ls)) = list_sum (map (fun l => list_sum (map f l)) ls).
Proof. induction ls as [|l ls IH]; [reflexivity|]. cbn [concat map]. rewrite map_app, list_sum_app, IH. reflexivity. Qed.
Lemma expected_inner k n v ch a : str_in n token_tags = false -> own_fault (T n v ch a) = None ->
  expected_marks k (T n v ch a) = own_marks k (T n v ch a) + list_sum (map (expected_marks k) (visited (T n v ch a))).
Proof.
  intros N F. unfold expected_marks at 1. cbn [converted]. rewrite N. cbn [map]. change (list_sum (?x :: ?l)) with (x + list_sum l). f_equal.
  rewrite sum_concat, arrange_map, map_map. apply sum_permuted. apply (Permutation_map (expected_marks k)). apply arrange_permuted; auto.
Qed.
Lemma expected_token k n v ch a s : str_in n token_tags = true -> latex_of (T n v ch a) = Ok s -> expected_marks k (T n v ch a) = count k s.
Proof.
  intros N E. unfold expected_marks. cbn [converted]. rewrite N. cbn [map list_sum fold_right]. unfold own_marks. cbn [t_name]. rewrite N, E. lia.
Qed.
Lemma visits_inner t u c : In c (visited t) -> visits c u -> visits t u.
Proof. intros. eapply visits_child; eauto. Qed.
Lemma latex_marked k t s : In k marks -> (forall u, visits t u -> tidy_element u) -> latex_of t = Ok s -> marked k s (expected_marks k t).
Proof.
  intros K H E. rewrite latex_of_render in E. revert H.
  assert (W : forall inside t s, render inside t = Ok s -> own_fault t = None).
  { intros inside t0 s0 E0. apply own_none, (render_converts_iff _ inside). eauto. }
  enough (forall t inside s, render inside t = Ok s -> (forall u, visits t u -> tidy_element u) -> marked k s (expected_marks k t)) as X by eauto.
  clear t s E. intros t. induction t as [n v ch a IH] using tree_ind'. intros inside s E H.
  pose proof (W _ _ _ E) as F. apply render_view in E as (ss & R & A). apply rseq_map_forall in R.
  destruct (str_in n token_tags) eqn:N.
  - pose proof (token_assembled inside n v ch a ss s A N) as E. rewrite (expected_token k n v ch a s) by auto. split; auto.
    apply tidy_neat. eapply (proj1 (H (T n v ch a) (visits_self _))); eauto. apply str_in_spec. auto.
  - rewrite expected_inner by auto. 
    assert (FM : Forall2 (marked k) ss (map (expected_marks k) (visited (T n v ch a)))).
    { assert (IV : forall c, In c (visited (T n v ch a)) -> forall inside s, render inside c = Ok s -> marked k s (expected_marks k c)).
      { intros c I i s0 E. rewrite Forall_forall in IH. apply visited_child in I as J. eapply IH; eauto. intros u V. apply H. eapply visits_inner; eauto. }
      revert R IV. generalize (visited (T n v ch a)) as l. clear. intros l R IV. induction R; constructor.
      - eapply IV; cbn; eauto.
      - apply IHR. intros c I. apply IV. cbn; auto. }
    apply (assembled_marked k K inside n v ch a ss s) in FM; auto.
    + unfold own_marks. cbn [t_name t_children]. rewrite N. exact FM.
    + apply H. constructor.
    + clear - R. induction R; cbn; auto.
Qed.
Lemma latex_marks k t s : In k marks -> (forall u, visits t u -> tidy_element u) -> latex_of t = Ok s -> count k s = expected_marks k t.
Proof. intros K H E. apply latex_marked; auto. Qed.
Lemma latex_tidy t s : (forall u, visits t u -> tidy_element u) -> latex_of t = Ok s -> tidy s.
Proof. intros H E. apply tidy_neat. apply (latex_marked (Chr 35%N) t s); auto. cbn. auto. Qed.
Lemma document_marks k d s : In k marks -> (forall t u, In t (math_trees d) -> visits t u -> tidy_element u) -> document_latex d = Ok s ->
  count k s = list_sum (map (expected_marks k) (math_trees d)).
Proof.
  intros K H. unfold document_latex. destruct (rseq (map latex_of (math_trees d))) as [ss|] eqn:R; [|discriminate]. cbn [rbind]. intro E.
  assert (X : s = concat ss) by congruence. subst s. clear E. apply rseq_map_forall in R.
  apply (marked_concat k K). revert R H. generalize (math_trees d). clear - K. intros l R H. induction R; constructor.
  - apply latex_marked; auto. intros u V. apply (H x); cbn; auto.
  - apply IHR. intros t u I. apply H. cbn. auto.
Qed.
Lemma converted_visits t : well_formed t -> forall u, In u (converted t) <-> visits t u.
Proof.
  induction t as [n v ch a IH] using tree_ind'. intros W u. cbn [converted]. pose proof (own_none _ W) as F. rewrite Forall_forall in IH.
  split.
  - intros [<-|I]; [constructor|]. destruct (str_in n token_tags) eqn:N; [destruct I|].
    rewrite arrange_map, <- flat_map_concat_map in I. apply in_flat_map in I as (c & I & J). apply (arrange_visited n v a ch c N F) in I.
    eapply visits_inner; eauto. apply IH; auto; [apply visited_child in I; auto|]. intros x V. apply W. eapply visits_inner; eauto.
  - intro V. inversion V as [|? c ? IC VC]; subst; [left; auto|]. right. destruct (str_in n token_tags) eqn:N.
    + exfalso. revert IC. unfold visited.
      change (map lit ["mphantom"; "mi"; "mo"; "mn"; "mtext"]) with (lit "mphantom" :: token_tags).
      unfold str_in at 1. cbn [existsb]. change (existsb (str_eqb n) token_tags) with (str_in n token_tags). rewrite N, orb_true_r. intros [].
    + rewrite arrange_map, <- flat_map_concat_map. apply in_flat_map. exists c. split; [apply (arrange_visited n v a ch c N F); auto|].
      apply IH; auto; [apply visited_child in IC; auto|]. intros x V'. apply W. eapply visits_inner; eauto.
Qed.

(** ** Tokens *)
Definition five_tables := [all_math_symbols_by_char; all_math_symbols_by_glyph; all_math_operators_by_char; all_math_operators_by_glyph; math_number_by_glyph].
Definition entry_free (kv : str * str) : bool :=
  constant (snd kv) || str_eqb (fst kv) [quote_mark] && neat_b (snd kv) && forallb (fun k => Nat.eqb (count k (snd kv)) 0) specials.
Lemma entries_free d : In d five_tables -> forallb entry_free d = true.
Proof. intros [<-|[<-|[<-|[<-|[<-|[]]]]]]; vm_compute; reflexivity. Qed.
Lemma accents_constant : forallb (fun kv => constant (accent_or_font (fst kv))) vowels_with_accents = true.
Proof. vm_compute. reflexivity. Qed.
Lemma fonts_constant : forallb (fun kv => constant (accent_or_font (fst kv))) special_font_chars = true.
Proof. vm_compute. reflexivity. Qed.
Lemma marks_known ts : In ts [mi_tables; mo_tables] ->
  forallb (fun c => match first_entry ts [c] with Some _ => true | None => false end) [35; 36; 37; 38; 92]%N = true.
Proof. intros [<-|[<-|[]]]; vm_compute; reflexivity. Qed.
Lemma accent_marked k w : In k marks -> markless w -> marked k (accent_or_font w) 0.
Proof.
  intros K P. destruct (dget vowels_with_accents w) as [x|] eqn:V.
  - apply marked_constant; auto. apply dget_In in V. pose proof accents_constant as X. rewrite forallb_forall in X. apply (X _ V).
  - destruct (dget special_font_chars w) as [x|] eqn:S.
    + apply marked_constant; auto. apply dget_In in S. pose proof fonts_constant as X. rewrite forallb_forall in X. apply (X _ S).
    + unfold accent_or_font. rewrite V, S. apply marked_markless; auto.
Qed.
Lemma entry_marked k ts w s : In k marks -> incl ts five_tables -> (k = double_backslash -> w <> [quote_mark]) ->
  first_entry ts w = Some s -> marked k s 0.
Proof.
  intros K I Q. induction ts as [|d ts IH]; intro E; [discriminate|]. cbn [first_entry] in E.
  assert (I' : incl ts five_tables) by (intros x X; apply I; cbn; auto).
  destruct (dget d w) as [[|c cs]|] eqn:G; auto. injection E as <-. apply dget_In in G.
  assert (X : forallb entry_free d = true) by (apply entries_free, I; cbn; auto). rewrite forallb_forall in X. specialize (X _ G).
  unfold entry_free in X. cbn [fst snd] in X. apply orb_true_iff in X as [X|X]; [apply marked_constant; auto|].
  apply andb_true_iff in X as [X C]. apply andb_true_iff in X as [X N]. apply str_eqb_eq in X. rewrite forallb_forall in C.
  split; [apply neat_check; auto|]. apply Nat.eqb_eq, C. destruct (token_dec k double_backslash) as [->|D]; [exfalso; apply Q; auto|].
  cbn in K |- *. unfold double_backslash in D. intuition congruence.
Qed.
Lemma symbol_marked k ts w : In k marks -> incl ts five_tables -> (k = double_backslash -> w <> [quote_mark]) ->
  markless w \/ (In ts [mi_tables; mo_tables] /\ exists c, w = [c]) -> marked k (symbol ts w) 0.
Proof.
  intros K I Q H. unfold symbol. destruct (first_entry ts w) as [s|] eqn:E; [eapply entry_marked; eauto|].
  apply accent_marked; auto. destruct H as [H|[T [c ->]]]; auto.
  intros x [<-|[]] J. pose proof (marks_known ts T) as X. rewrite forallb_forall in X. specialize (X _ J). cbn beta in X. rewrite E in X. discriminate.
Qed.
Lemma markless_squeeze v : markless v -> markless (squeeze v).
Proof. intros M c I. apply squeeze_chars in I as [->|I]; auto. cbn. intuition discriminate. Qed.
Lemma shown_text v c : shows v c -> markless (squeeze v) \/ squeeze v = [c].
Proof.
  intro S. destruct (is_space c) eqn:W.
  - left. destruct S as (p & q & -> & P & Q). unfold squeeze. rewrite words_white; [intros x []|].
    apply Forall_app. split; auto. constructor; auto. apply white_is_space. auto.
  - right. apply squeeze_shows; auto. apply not_white. auto.
Qed.
Lemma commands_marked k cmds s x : In k marks -> forallb (fun c => constant (lit c)) cmds = true -> marked k s x -> marked k (in_commands cmds s) x.
Proof.
  intros K C M. induction cmds as [|c cmds IH]; auto. cbn [forallb] in C. apply andb_true_iff in C as [C1 C2].
  cbn [in_commands]. apply marked_before; auto. apply marked_around; auto.
Qed.
Lemma variant_constant l d v : forallb (fun e : string * list string => forallb (fun c => constant (lit c)) (snd e)) l = true ->
  forallb (fun c => constant (lit c)) d = true -> forallb (fun c => constant (lit c)) (variant_lookup l d v) = true.
Proof.
  intros L D. induction l as [|[key c] l IH]; auto. cbn [forallb] in L. apply andb_true_iff in L as [L1 L2].
  cbn [variant_lookup]. destruct (str_eqb v (lit key)); auto.
Qed.
Definition harmless (v : str) : Prop := markless v \/ exists c, shows v c.
Lemma squeeze_quote v : squeeze v = [quote_mark] -> In quote_mark v.
Proof. intro E. assert (I : In quote_mark (squeeze v)) by (rewrite E; cbn; auto). apply squeeze_chars in I as [I|I]; auto. discriminate. Qed.
Lemma mi_marked k v a : In k marks -> harmless v -> (k = double_backslash -> ~ In quote_mark v) -> marked k (mi_latex v a) 0.
Proof.
  intros K H Q. unfold mi_latex. apply commands_marked; auto; [apply variant_constant; vm_compute; reflexivity|].
  apply symbol_marked; auto.
  - intros x I. cbn in *. tauto.
  - intros E F. apply squeeze_quote in F. exact (Q E F).
  - destruct H as [H|[c H]]; [left; apply markless_squeeze; auto|]. apply shown_text in H as [H|H]; auto. right. cbn. eauto.
Qed.
Lemma mo_marked k v : In k marks -> harmless v -> (k = double_backslash -> ~ In quote_mark v) -> marked k (mo_latex v) 0.
Proof.
  intros K H Q. unfold mo_latex. apply symbol_marked; auto.
  - intros x I. cbn in *. tauto.
  - intros E F. apply squeeze_quote in F. exact (Q E F).
  - destruct H as [H|[c H]]; [left; apply markless_squeeze; auto|]. apply shown_text in H as [H|H]; auto. right. cbn. eauto.
Qed.
Lemma mn_marked k v : In k marks -> markless v -> (k = double_backslash -> ~ In quote_mark v) -> marked k (mn_latex v) 0.
Proof.
  intros K H Q. unfold mn_latex. destruct (first_entry _ _) as [s|] eqn:E; [|apply marked_markless; auto; apply markless_squeeze; auto].
  eapply (entry_marked k [math_number_by_glyph]); eauto.
  - intros x I. cbn in *. tauto.
  - intros X F. apply squeeze_quote in F. exact (Q X F).
Qed.
Lemma plain_text_markless w : Forall (fun c => plain_text_char c = true) w -> markless w.
Proof.
  intros F c I J. apply (proj1 (Forall_forall _ _) F) in I. cbn in J. repeat (destruct J as [<-|J]; [discriminate I|]). destruct J.
Qed.
Lemma single_shows c : shows [c] c.
Proof. exists [], []. repeat split; constructor. Qed.
Lemma quote_latex a : attr a "mathvariant" = [] -> mi_latex [quote_mark] a = [92; 92; 34]%N.
Proof. intro A. unfold mi_latex. rewrite A. vm_compute. reflexivity. Qed.
(** The breaks of a text are its quotation marks. *)
Definition quotes (k : token) (v : str) : nat := if token_dec k double_backslash then count_occ N.eq_dec v quote_mark else 0.
Lemma quotes_app k v w : quotes k (v ++ w) = quotes k v + quotes k w.
Proof. unfold quotes. destruct (token_dec _ _); auto. apply count_occ_app. Qed.
Lemma mtext_marked k v a : In k marks -> marked k (mtext_latex v a) (quotes k v).
Proof.
  intro K. unfold mtext_latex. rewrite <- (runs_concat v) at 2.
  assert (X : forall l, (forall b w, In (b, w) l -> In (b, w) (text_runs v)) ->
    marked k (concat (map (fun run : bool * str => if fst run then in_commands (variant_lookup mtext_variants ["\text"] (attr a "mathvariant")) (snd run)
                 else mi_latex (snd run) []) l)) (quotes k (concat (map snd l)))).
  2: { apply X. auto. }
  induction l as [|[b w] l IH]; intro I.
  - unfold quotes. destruct (token_dec _ _); apply marked_nil; auto.
  - cbn [map concat fst snd]. rewrite quotes_app. apply marked_app; auto; [|apply IH; intros; apply I; cbn; auto].
    specialize (I b w (or_introl eq_refl)). apply runs_kinds in I. destruct b.
    + assert (M : markless w) by (apply plain_text_markless, I).
      apply marked_eq with 0.
      { unfold quotes. destruct (token_dec _ _); auto. symmetry. apply count_occ_not_In. intro J.
        destruct I as [_ I]. apply (proj1 (Forall_forall _ _) I) in J. discriminate. }
      apply commands_marked; auto; [apply variant_constant; vm_compute; reflexivity|]. apply marked_markless; auto.
    + destruct I as (c & -> & _). unfold quotes. destruct (N.eq_dec c quote_mark) as [->|NQ].
      * destruct (token_dec k double_backslash) as [->|D].
        -- rewrite quote_latex by reflexivity. split; [apply neat_check|]; vm_compute; reflexivity.
        -- apply mi_marked; [auto|right; exists quote_mark; apply single_shows|intro; contradiction].
      * apply marked_eq with 0; [destruct (token_dec _ _); auto; cbn [count_occ]; destruct (N.eq_dec c quote_mark); [contradiction|reflexivity]|].
        apply mi_marked; auto; [right; exists c; apply single_shows|]. intros _ [J|[]]. auto.
Qed.

(** ** Clean trees *)
Lemma token_names u : In (t_name u) token_tags -> exists s, latex_of u = Ok s /\
  ((t_name u = lit "mi" /\ s = mi_latex (t_value u) (t_attributes u)) \/ (t_name u = lit "mo" /\ s = mo_latex (t_value u))
   \/ (t_name u = lit "mn" /\ s = mn_latex (t_value u)) \/ (t_name u = lit "mtext" /\ s = mtext_latex (t_value u) (t_attributes u))).
Proof.
  destruct u as [n v ch a]. cbn [t_name t_value t_attributes]. intros [<-|[<-|[<-|[<-|[]]]]]; rewrite latex_node' by reflexivity;
  (eexists; split; [reflexivity|]); auto 6.
Qed.
Lemma clean_marked k u s : In k marks -> clean_element u -> In (t_name u) token_tags -> latex_of u = Ok s ->
  (t_name u <> lit "mtext" -> k = double_backslash -> ~ In quote_mark (t_value u)) ->
  marked k s (if str_eqb (t_name u) (lit "mtext") then quotes k (t_value u) else 0).
Proof.
  intros K (CN & CI & _) I E Q. destruct (token_names u I) as (s' & E' & H). rewrite E in E'. 
  assert (X : s = s') by congruence. subst s'. clear E'.
  destruct H as [[N ->]|[[N ->]|[[N ->]|[N ->]]]]; rewrite N in *.
  - change (str_eqb (lit "mi") (lit "mtext")) with false. cbn iota. apply mi_marked; auto; [apply CI; cbn; auto|]. apply Q. discriminate.
  - change (str_eqb (lit "mo") (lit "mtext")) with false. cbn iota. apply mo_marked; auto; [apply CI; cbn; auto|]. apply Q. discriminate.
  - change (str_eqb (lit "mn") (lit "mtext")) with false. cbn iota. apply mn_marked; auto. apply Q. discriminate.
  - change (str_eqb (lit "mtext") (lit "mtext")) with true. apply mtext_marked; auto.
Qed.
Lemma clean_tidy u : clean_element u -> tidy_element u.
Proof.
  intro C. split; [|apply C]. intros I s E. apply tidy_neat.
  apply (clean_marked (Chr 35%N) u s); auto; [cbn; auto|discriminate].
Qed.
Lemma special_mark k : In k specials -> In k marks /\ k <> double_backslash.
Proof. intro K. split; [cbn in *; tauto|]. cbn in K. intuition (subst; discriminate). Qed.
Lemma own_clean k u : In k marks -> clean_element u -> (k = double_backslash -> In (t_name u) token_tags -> ~ In quote_mark (t_value u)) ->
  own_marks k u = (if token_dec k ampersand then if str_eqb (t_name u) (lit "mtr") then length (t_children u) - 1 else 0 else 0)
                + (if token_dec k double_backslash then if str_eqb (t_name u) (lit "mtable") then length (t_children u) - 1 else 0 else 0).
Proof.
  intros K C Q. assert (D0 : ampersand <> double_backslash) by discriminate. unfold own_marks. destruct (str_in (t_name u) token_tags) eqn:N.
  - apply str_in_spec in N. destruct (token_names u N) as (s & E & H). rewrite E.
    assert (M : marked k s (if str_eqb (t_name u) (lit "mtext") then quotes k (t_value u) else 0)) by (apply clean_marked; auto).
    destruct M as [_ M]. rewrite M.
    assert (X : str_eqb (t_name u) (lit "mtr") = false /\ str_eqb (t_name u) (lit "mtable") = false).
    { cbn in N. destruct N as [<-|[<-|[<-|[<-|[]]]]]; split; reflexivity. }
    destruct X as [-> ->]. destruct (str_eqb (t_name u) (lit "mtext")).
    + unfold quotes. destruct (token_dec k double_backslash) as [D|D]; destruct (token_dec k ampersand); auto;
      rewrite (proj1 (count_occ_not_In N.eq_dec _ _)); auto.
    + destruct (token_dec k double_backslash); destruct (token_dec k ampersand); auto.
  - destruct (str_eqb (t_name u) (lit "mtr")) eqn:R.
    + apply str_eqb_eq in R. rewrite R. change (str_eqb (lit "mtr") (lit "mtable")) with false.
      destruct (token_dec k ampersand); destruct (token_dec k double_backslash); try congruence; cbn [andb]; lia.
    + destruct (token_dec k ampersand); destruct (token_dec k double_backslash); try congruence; cbn [andb]; destruct (str_eqb (t_name u) (lit "mtable")); cbn [andb]; try lia.
Qed.
Lemma clean_counts k t s : In k marks -> clean_tree t -> (k = double_backslash -> unquoted_tree t) -> latex_of t = Ok s ->
  count k s = (if token_dec k ampersand then gaps_of "mtr" (converted t) else 0)
            + (if token_dec k double_backslash then gaps_of "mtable" (converted t) else 0).
Proof.
  intros K C Q E. rewrite (latex_marks k t s) by (auto; intros u V; apply clean_tidy; auto).
  assert (W : forall u, In u (converted t) -> visits t u).
  { intros u I. apply (proj1 (converted_visits t ltac:(apply converts_iff; eauto) u) I). }
  unfold expected_marks, gaps_of. revert W. generalize (converted t) as l. induction l as [|u l IH]; intro W.
  - destruct (token_dec k ampersand); destruct (token_dec k double_backslash); reflexivity.
  - cbn [map]. change (list_sum (?x :: ?y)) with (x + list_sum y). rewrite IH by (intros; apply W; cbn; auto).
    rewrite own_clean; auto.
    + cbn [map]. change (list_sum (?x :: ?y)) with (x + list_sum y).
      destruct (token_dec k ampersand); destruct (token_dec k double_backslash); cbn [map list_sum fold_right]; lia.
    + apply C, W. cbn. auto.
    + intros D I. apply (Q D); auto. apply W. cbn. auto.
Qed.
Lemma clean_specials k t s : In k specials -> k <> ampersand -> clean_tree t -> latex_of t = Ok s -> count k s = 0.
Proof.
  intros K A C E. apply special_mark in K as [K D]. rewrite (clean_counts k t s) by (auto; intro; contradiction).
  destruct (token_dec k ampersand); [contradiction|]. destruct (token_dec k double_backslash); [contradiction|reflexivity].
Qed.
Lemma clean_ampersands t s : clean_tree t -> latex_of t = Ok s -> count ampersand s = gaps_of "mtr" (converted t).
Proof.
  intros C E. rewrite (clean_counts ampersand t s) by (first [assumption|discriminate|cbn; auto 6]).
  destruct (token_dec ampersand ampersand); [|congruence]. destruct (token_dec ampersand double_backslash); [discriminate|lia].
Qed.
Lemma clean_breaks t s : clean_tree t -> unquoted_tree t -> latex_of t = Ok s -> count double_backslash s = gaps_of "mtable" (converted t).
Proof.
  intros C Q E. rewrite (clean_counts double_backslash t s) by (first [assumption|intro; assumption|cbn; auto 6]).
  destruct (token_dec double_backslash ampersand); [discriminate|]. destruct (token_dec double_backslash double_backslash); [lia|congruence].
Qed.
Lemma clean_document d s : (forall t, In t (math_trees d) -> clean_tree t) -> document_latex d = Ok s ->
  (forall k, In k specials -> k <> ampersand -> count k s = 0)
  /\ count ampersand s = gaps_of "mtr" (flat_map converted (math_trees d))
  /\ ((forall t, In t (math_trees d) -> unquoted_tree t) -> count double_backslash s = gaps_of "mtable" (flat_map converted (math_trees d))).
Proof.
  intro C. unfold document_latex. destruct (rseq (map latex_of (math_trees d))) as [ss|] eqn:R; [|discriminate]. cbn [rbind]. intro E.
  assert (X : s = concat ss) by congruence. subst s. clear E. apply rseq_map_forall in R.
  assert (G : forall tag l1 l2, gaps_of tag (l1 ++ l2) = gaps_of tag l1 + gaps_of tag l2).
  { intros. unfold gaps_of. rewrite map_app, list_sum_app. auto. }
  revert C R. generalize (math_trees d). intros l C R. induction R as [|t s l ss E R IH].
  - repeat split.
  - assert (CL : forall t, In t l -> clean_tree t) by (intros; apply C; cbn; auto).
    destruct (IH CL) as (I1 & I2 & I3). assert (CT : clean_tree t) by (apply C; cbn; auto).
    assert (N : neat s) by (apply tidy_neat, (latex_tidy t s); auto; intros u V; apply clean_tidy; auto).
    cbn [concat flat_map]. rewrite !G. repeat split.
    + intros k K A. rewrite count_app; auto; [|apply special_mark; auto]. rewrite I1 by auto. rewrite (clean_specials k t s); auto.
    + rewrite count_app, I2, (clean_ampersands t s); auto. cbn. auto.
    + intro Q. rewrite count_app, I3, (clean_breaks t s); auto.
      * apply Q. cbn. auto.
      * intros u I. apply Q. cbn. auto.
      * cbn. auto 6.
Qed.
Lemma visited_rows v rows a : visited (T (lit "mtable") v rows a) = rows.
Proof. reflexivity. Qed.
Lemma grid_marks v a rows c s : (forall row, In row rows -> t_name row = lit "mtr" /\ length (t_children row) = c) ->
  (forall u, visits (T (lit "mtable") v rows a) u -> tidy_element u) -> latex_of (T (lit "mtable") v rows a) = Ok s ->
  let cells := concat (map t_children rows) in
  count ampersand s = length rows * (c - 1) + list_sum (map (expected_marks ampersand) cells)
  /\ count double_backslash s = (length rows - 1) + list_sum (map (expected_marks double_backslash) cells).
Proof.
  intros R H E cells. assert (F : own_fault (T (lit "mtable") v rows a) = None) by (apply own_none, converts_iff; eauto).
  assert (X : forall k, In k marks -> list_sum (map (expected_marks k) rows) =
    (if token_dec k ampersand then length rows * (c - 1) else 0) + list_sum (map (expected_marks k) cells)).
  { intros k K. subst cells. clear E H F. induction rows as [|row rows IH]; [destruct (token_dec _ _); reflexivity|].
    cbn [map concat length]. rewrite map_app, list_sum_app. change (list_sum (?x :: ?y)) with (x + list_sum y).
    rewrite IH by (intros; apply R; cbn; auto). destruct (R row (or_introl eq_refl)) as [N L]. destruct row as [n v' ch a']. cbn [t_name t_children] in *. subst n.
    rewrite expected_inner by reflexivity. change (visited (T (lit "mtr") v' ch a')) with ch. unfold own_marks. cbn [t_name t_children].
    change (str_in (lit "mtr") token_tags) with false. change (str_eqb (lit "mtr") (lit "mtr")) with true. change (str_eqb (lit "mtr") (lit "mtable")) with false.
    cbn iota. rewrite L. destruct (token_dec k ampersand); cbn [andb]; lia. }
  assert (A1 : In ampersand marks) by (cbn; auto 6). assert (A2 : In double_backslash marks) by (cbn; auto 6).
  split; rewrite (latex_marks _ (T (lit "mtable") v rows a) s) by assumption; rewrite expected_inner by (reflexivity || assumption);
    rewrite visited_rows, X by assumption; unfold own_marks; cbn [t_name t_children]; change (str_in (lit "mtable") token_tags) with false;
    change (str_eqb (lit "mtable") (lit "mtr")) with false; change (str_eqb (lit "mtable") (lit "mtable")) with true; cbn [andb]; cbn iota.
  - destruct (token_dec ampersand ampersand); [|congruence]. destruct (token_dec ampersand double_backslash); [discriminate|lia].
  - destruct (token_dec double_backslash ampersand); [discriminate|]. destruct (token_dec double_backslash double_backslash); [lia|congruence].
Qed.

(** ** Deciding the conditions, for the examples *)
Definition marklessb (s : str) : bool := forallb (fun c => negb (existsb (N.eqb c) [35; 36; 37; 38; 92]%N)) s.
Lemma marklessb_sound s : marklessb s = true -> markless s.
Proof.
  unfold marklessb, markless. rewrite forallb_forall. intros H c I J. specialize (H c I). apply negb_true_iff in H.
  assert (X : existsb (N.eqb c) [35; 36; 37; 38; 92]%N = true) by (apply existsb_exists; exists c; split; [auto|apply N.eqb_refl]). congruence.
Qed.
Definition clean_elementb (u : tree) : bool :=
  implb (str_in (t_name u) (map lit ["mn"])) (marklessb (t_value u))
  && implb (str_in (t_name u) (map lit ["mi"; "mo"])) (marklessb (t_value u) || Nat.eqb (length (t_value u)) 1)
  && implb (str_eqb (t_name u) (lit "mfenced")) (forallb (fun key => marklessb (attr (t_attributes u) key)) ["open"; "close"; "separators"]%string).
Lemma clean_elementb_sound u : clean_elementb u = true -> clean_element u.
Proof.
  unfold clean_elementb, clean_element. rewrite !andb_true_iff. intros [[H1 H2] H3]. split; [|split].
  - intro E. rewrite E in H1. apply marklessb_sound. auto.
  - intro I. apply str_in_In in I. change [lit "mi"; lit "mo"] with (map lit ["mi"; "mo"]) in I. rewrite I in H2. cbn [implb] in H2.
    apply orb_true_iff in H2 as [H2|H2]; [left; apply marklessb_sound; auto|right].
    destruct (t_value u) as [|c [|]]; try discriminate. exists c. apply single_shows.
  - intros E key I. rewrite E, str_eqb_refl in H3. cbn [implb] in H3. rewrite forallb_forall in H3. apply marklessb_sound, H3. auto.
Qed.
Lemma clean_check t : forallb clean_elementb (preorder t) = true -> clean_tree t.
Proof. rewrite forallb_forall. intros H u V. apply clean_elementb_sound, H, visits_preorder. auto. Qed.
Lemma unquoted_check t : forallb (fun u => negb (existsb (N.eqb quote_mark) (t_value u))) (preorder t) = true -> unquoted_tree t.
Proof.
  rewrite forallb_forall. intros H u V _ I. apply visits_preorder, H, negb_true_iff in V.
  assert (X : existsb (N.eqb quote_mark) (t_value u) = true) by (apply existsb_exists; exists quote_mark; split; [auto|apply N.eqb_refl]). congruence.
Qed.
