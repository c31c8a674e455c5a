(** The texts of the regular expressions of /repo, read by PyRegex.v, mean the same as the patterns of the model. *)
From Coq Require Import String.
From Verif Require Export PyRegex ModelXml LemRegex.
Local Open Scope string_scope.
Local Open Scope list_scope.

(** The same matches. *)
Definition req (a b : regex) : Prop := forall R total s g (k : str -> caps -> option R), m_regex total a s g k = m_regex total b s g k.
Lemma req_refl a : req a a.
Proof. intros R total s g k. reflexivity. Qed.
Lemma req_trans a b c : req a b -> req b c -> req a c.
Proof. intros H1 H2 R total s g k. rewrite H1. apply H2. Qed.
Lemma req_sym a b : req a b -> req b a.
Proof. intros H R total s g k. symmetry. apply H. Qed.
Lemma req_char p q : (forall c, p c = q c) -> req (RChar p) (RChar q).
Proof. intros H R total s g k. cbn. destruct s as [|c s]; [reflexivity|]. rewrite H. reflexivity. Qed.
Lemma req_seq a b c d : req a b -> req c d -> req (RSeq a c) (RSeq b d).
Proof. intros H1 H2 R total s g k. cbn. rewrite H1. apply m_ext. intros. apply H2. Qed.
Lemma req_alt a b c d : req a b -> req c d -> req (RAlt a c) (RAlt b d).
Proof. intros H1 H2 R total s g k. cbn. rewrite H1, H2. reflexivity. Qed.
Lemma req_opt a b : req a b -> req (ROpt a) (ROpt b).
Proof. intros H1 R total s g k. cbn. rewrite H1. reflexivity. Qed.
Lemma req_group n a b : req a b -> req (RGroup n a) (RGroup n b).
Proof. intros H1 R total s g k. cbn. rewrite H1. reflexivity. Qed.
Lemma req_notahead a b : req a b -> req (RNotAhead a) (RNotAhead b).
Proof. intros H1 R total s g k. cbn. rewrite H1. reflexivity. Qed.
Lemma req_star a b : req a b -> req (RStar a) (RStar b).
Proof.
  intros H R total s g k. rewrite !m_star. generalize (length s) as f. intros f. revert s g. induction f as [|f IH]; intros s g; [reflexivity|].
  rewrite !star_loop_S, H. erewrite m_ext; [reflexivity|]. intros s1 g1 _. cbn. rewrite IH. reflexivity.
Qed.
Lemma req_end a : req (RSeq a REmpty) a.
Proof. intros R total s g k. reflexivity. Qed.

Lemma req_attempt a b total must s : req a b -> attempt total must a s = attempt total must b s.
Proof. intros H. apply H. Qed.
Lemma req_match a b s : req a b -> re_match a s = re_match b s.
Proof. intros H. apply H. Qed.
Lemma req_search_from a b total : req a b -> forall s must, search_from total must a s = search_from total must b s.
Proof.
  intros H. induction s as [|c s IH]; intros must; cbn; rewrite (req_attempt a b _ _ _ H); [reflexivity|]. rewrite IH. reflexivity.
Qed.
Lemma req_search a b s : req a b -> re_search a s = re_search b s.
Proof. intros H. unfold re_search. rewrite (req_search_from a b _ H). reflexivity. Qed.
Lemma req_sub a b f f' s : req a b -> (forall g, f g = f' g) -> re_sub a f s = re_sub b f' s.
Proof.
  intros H Hf. unfold re_sub. generalize (length s) at 2 4 as total. generalize (S (2 * length s + 1)) as n. generalize false as must.
  intros must n total. revert s must.
  induction n as [|n IH]; intros s must; [reflexivity|]. cbn [sub_from]. rewrite (req_search_from a b _ H).
  destruct (search_from total must b s) as [[[sk s1] g]|]; [|reflexivity]. rewrite Hf, IH. reflexivity.
Qed.

(** Two sets of characters given by comparisons are the same: all the cases. *)
Ltac same_set := intros c; cbv beta delta [ignore_case alnum_ignorecase in_range];
  repeat match goal with
  | |- context [(?a <=? ?b)%N] => destruct (N.leb_spec a b); try lia
  | |- context [(?a =? ?b)%N] => destruct (N.eqb_spec a b); try lia
  end; reflexivity.
Ltac same_match := intros R total s g k; reflexivity.

Section Patterns.
Variable word_char : N -> bool.

(** syntax.py:26 *)
Lemma alnum_pattern : exists r, parse_regex word_char true false (lit "[a-z0-9]") = Some r /\ req r (RChar alnum_ignorecase).
Proof.
  exists (RSeq (RChar (ignore_case (fun x => (false || in_range 97 122 x) || in_range 48 57 x))) REmpty). split; [reflexivity|].
  eapply req_trans; [apply req_end|]. apply req_char. same_set.
Qed.
(** usecases.py:663 *)
Lemma char_pattern : exists r, parse_regex word_char false false (lit "^[a-zA-Z0-9]$") = Some r /\ req r (RSeq RBol (RSeq (RChar ascii_alnum) REol)).
Proof.
  exists (RSeq RBol (RSeq (RChar (fun x => ((false || in_range 97 122 x) || in_range 65 90 x) || in_range 48 57 x)) (RSeq REol REmpty))). split; [reflexivity|].
  apply req_seq; [apply req_refl|]. apply req_seq; [|apply req_end].
  apply req_char. intros c. reflexivity.
Qed.
(** usecases.py:732 *)
Lemma under_pattern : exists r, parse_regex word_char false false (lit "under") = Some r /\ req r (RLit (lit "under")).
Proof. eexists. split; [reflexivity|]. apply req_refl. Qed.
(** usecases.py:815 *)
Lemma space_pattern : exists r, parse_regex word_char false false (lit "\s+") = Some r /\ req r (RPlus (RChar is_space)).
Proof. eexists. split; [reflexivity|]. apply req_end. Qed.
(** adapter.py:30, 34 *)
Lemma break_pattern : exists r, parse_regex word_char false false (lit "\n|\r\n|\r") = Some r /\ req r line_break_pattern.
Proof. eexists. split; [reflexivity|]. apply req_refl. Qed.
Lemma prefix_pattern : exists r, parse_regex word_char false false (lit "mml:") = Some r /\ req r (RLit (lit "mml:")).
Proof. eexists. split; [reflexivity|]. apply req_refl. Qed.

(** error_handler.py:62 *)
Lemma quote_set c : (false || N.eqb 34 c || N.eqb 39 c) = is_quote c.
Proof. unfold is_quote. rewrite (N.eqb_sym 34), (N.eqb_sym 39). reflexivity. Qed.
Definition generic_text : str := lit "(<.* )(\w+=(?!([" ++ [34%N] ++ lit "\'])))?(.*>)".
Lemma generic_pattern : exists r, parse_regex word_char false true generic_text = Some r /\ req r (generic_missing_pattern word_char).
Proof.
  eexists. split; [reflexivity|]. unfold generic_missing_pattern.
  apply req_seq; [same_match|]. apply req_seq; [|same_match]. apply req_opt, req_group.
  apply req_seq; [same_match|]. apply req_seq; [same_match|]. eapply req_trans; [apply req_end|].
  apply req_notahead. eapply req_trans; [apply req_end|]. apply req_group. eapply req_trans; [apply req_end|].
  apply req_char. exact quote_set.
Qed.

(** error_handler.py:47-51 *)
Lemma special_escaped c : special c = true -> (c =? 119 = false /\ c =? 115 = false /\ c =? 110 = false /\ c =? 114 = false /\ c =? 116 = false)%N
  /\ letter_or_digit c = false.
Proof.
  unfold special. rewrite existsb_exists. intros (x & Hx & Ec). apply N.eqb_eq in Ec. subst x.
  cbn in Hx. repeat (destruct Hx as [<-|Hx]; [repeat split; reflexivity|]). contradiction.
Qed.
Lemma parse_one_special c s g st alts items : special c = true ->
  parse word_char false true (92%N :: c :: s) g st alts items None
  = parse word_char false true s g st alts (RChar (N.eqb c) :: items) None.
Proof.
  intros H. destruct (special_escaped c H) as ((H1 & H2 & H3 & H4 & H5) & H6).
  cbn [parse]. unfold escaped_char. rewrite H1, H2, H3, H4, H5, H6. reflexivity.
Qed.
Lemma parse_one_plain c s g st alts items : special c = false ->
  parse word_char false true (c :: s) g st alts items None
  = parse word_char false true s g st alts (RChar (N.eqb c) :: items) None.
Proof.
  intros H. unfold special in H. cbn [existsb] in H. repeat (apply orb_false_iff in H; destruct H as [? H]).
  cbn [parse existsb]. repeat match goal with E : (c =? _)%N = false |- _ => rewrite ?E; clear E end. reflexivity.
Qed.
Lemma parse_escaped w : forall s g st alts items,
  parse word_char false true (re_escape w ++ s) g st alts items None
  = parse word_char false true s g st alts (rev (map (fun c => RChar (N.eqb c)) w) ++ items) None.
Proof.
  induction w as [|c w IH]; intros s g st alts items; [reflexivity|].
  cbn [re_escape flat_map map rev]. change (flat_map _ w) with (re_escape w). rewrite <- app_assoc, <- (app_assoc (rev _)). cbn [app].
  destruct (special c) eqn:Hc; cbn [app].
  - rewrite parse_one_special by exact Hc. apply IH.
  - rewrite parse_one_plain by exact Hc. apply IH.
Qed.
(** A group that does not begin with a question mark *)
Lemma parse_group s g st alts items : hd_error s <> Some 63%N ->
  parse word_char false true (40%N :: s) g st alts items None
  = parse word_char false true s (S g) (Open (Some g) alts items :: st) [] [] None.
Proof.
  intros H. cbn [parse N.eqb Pos.eqb]. destruct s as [|[|p] s]; [reflexivity | reflexivity|].
  repeat (destruct p as [p|p|]; try reflexivity). exfalso. apply H. reflexivity.
Qed.
Lemma escape_head w s : hd_error s <> Some 63%N -> hd_error (re_escape w ++ s) <> Some 63%N.
Proof.
  intros H. destruct w as [|c w]; [exact H|]. cbn [re_escape flat_map]. destruct (special c) eqn:Hc; cbn [app hd_error]; [discriminate|].
  intros E. injection E as ->. vm_compute in Hc. discriminate.
Qed.
Lemma sequence_app a b : sequence (a ++ b) = fold_left (fun r x => RSeq x r) b (sequence a).
Proof. unfold sequence. apply fold_left_app. Qed.
Lemma req_word w r : req (fold_left (fun r x => RSeq x r) (rev (map (fun c => RChar (N.eqb c)) w)) r) (RSeq (RLit w) r).
Proof.
  revert r. induction w as [|c w IH]; intros r; [same_match|]. cbn [map rev]. rewrite fold_left_app. cbn [fold_left RLit].
  intros R total s g k. cbn [m_regex]. destruct s as [|d s]; [reflexivity|]. destruct (N.eqb c d); [|reflexivity]. apply IH.
Qed.

Definition quotes_text : str := lit "(?!([" ++ [34%N] ++ lit "\'])))".
Definition missing_text (w : str) : str :=
  lit "(" ++ re_escape w ++ lit "=" ++ quotes_text ++ lit "|(" ++ re_escape w ++ quotes_text.
Definition no_quote (n : nat) : regex := RNotAhead (RSeq (RGroup n (RSeq (RChar (fun x => false || N.eqb 34 x || N.eqb 39 x)) REmpty)) REmpty).
Lemma req_no_quote n : req (RSeq (no_quote n) REmpty) (RNotAhead (RGroup n (RChar is_quote))).
Proof.
  eapply req_trans; [apply req_end|]. apply req_notahead. eapply req_trans; [apply req_end|]. apply req_group.
  eapply req_trans; [apply req_end|]. apply req_char. exact quote_set.
Qed.
Lemma missing_pattern w : exists r, parse_regex word_char false true (missing_text w) = Some r /\ req r (missing_value_pattern w).
Proof.
  set (word := rev (map (fun c => RChar (N.eqb c)) w)).
  exists (RAlt (RSeq (RGroup 1 (sequence (no_quote 2 :: RChar (N.eqb 61) :: word))) REmpty)
               (RSeq (RGroup 3 (sequence (no_quote 4 :: word))) REmpty)).
  split.
  - unfold parse_regex, missing_text. change (lit "(" ++ ?s) with (40%N :: s).
    rewrite parse_group by (apply escape_head; discriminate). rewrite parse_escaped. fold word. rewrite app_nil_r.
    change (lit "|(" ++ ?s) with (124%N :: 40%N :: s). change (lit "=" ++ ?s) with (61%N :: s).
    transitivity (parse word_char false true (40%N :: re_escape w ++ quotes_text) 3 [] [RSeq (RGroup 1 (sequence (no_quote 2 :: RChar (N.eqb 61) :: word))) REmpty] [] None);
      [reflexivity|].
    rewrite parse_group by (apply escape_head; discriminate). rewrite parse_escaped. fold word. rewrite app_nil_r. reflexivity.
  - apply req_alt; (eapply req_trans; [apply req_end|]; apply req_group).
    + change (sequence (no_quote 2 :: RChar (N.eqb 61) :: word)) with (fold_left (fun r x => RSeq x r) word (RSeq (RChar (N.eqb 61)) (RSeq (no_quote 2) REmpty))).
      eapply req_trans; [apply req_word|]. apply req_seq; [apply req_refl|]. apply req_seq; [apply req_refl|]. apply req_no_quote.
    + change (sequence (no_quote 4 :: word)) with (fold_left (fun r x => RSeq x r) word (RSeq (no_quote 4) REmpty)).
      eapply req_trans; [apply req_word|]. apply req_seq; [apply req_refl|]. apply req_no_quote.
Qed.
End Patterns.
