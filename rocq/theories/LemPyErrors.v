(** xml_to_mathml/services/error_handler.py: the source does what the model does. *)
From Coq Require Import String.
From Verif Require LemCount.
From Verif Require Export LemPyAdapter.
Local Open Scope string_scope.
Local Open Scope list_scope.
Global Arguments expand : simpl never.
Global Arguments substituted : simpl never.
Global Arguments re_escape : simpl never.
Global Arguments split_on : simpl never.

(** ** The exact memory *)
Lemma evs_more {K} {A} (m : nat -> MM A) S S' o K' : evs K m S S' o -> K <= K' -> evs K' m S S' o.
Proof. intros H L n Hn. apply H. lia. Qed.
Lemma evs_done {K} {A} S (a b : A) : a = b -> evs K (fun _ => Ret a) S S (Done b).
Proof. intros <-. apply evs_ret. Qed.
Lemma evs_last {K} {A} (m : nat -> MM A) S S' o : evs K m S S' o -> evs K (fun n => bnd (m n) (fun a => Ret a)) S S' o.
Proof. intros H n Hn. rewrite run_bnd, (H n Hn). destruct o; reflexivity. Qed.
Create HintDb exact_bound.
#[global] Hint Extern 0 (_ <= _) => lia : exact_bound.
Ltac known_exact := solve [eauto 4 with exact_bound nocore].
Ltac pstep := match goal with
  | |- evs _ (fun n => Ret _) _ _ _ => first [apply evs_ret | apply evs_done; decided; try reflexivity; try same_text]
  | |- evs _ (fun n => Throw _) _ _ _ => apply evs_throw
  | |- evs _ (fun n => bnd (bnd _ _) _) _ _ _ => apply evs_assoc
  | |- evs _ (fun n => bnd _ (fun a => Ret a)) _ _ _ => apply evs_last
  | |- evs _ (fun n => bnd (Act _ _) _) _ _ _ => cbn [bnd]
  | |- evs _ (fun n => bnd (if ?b then _ else _) _) _ _ _ => known_term b; simple
  | |- evs _ (fun n => if ?b then _ else _) _ _ _ => known_term b; simple
  | H : py_index ?l ?i = _ |- evs _ (fun n => bnd (or_throw _ (py_index ?l ?i)) _) _ _ _ => rewrite H; simple
  | H : nth_error (objects _) ?r = Some _ |- evs _ (fun n => Act (with_object ?r _) _) _ _ _ => eapply evs_act; [unfold with_object; rewrite H; reflexivity | simple]
  | H : nth_error (objects _) ?r = Some _ |- evs _ (fun n => Act (set_field ?r _ _) _) _ _ _ => eapply evs_act; [unfold set_field; rewrite H; reflexivity | simple]
  | |- evs _ (fun n => bnd (call _ _ n _ _ _) _) _ _ _ => first [eapply evs_bnd; [known_exact | simple] | apply evs_bnd_raised; known_exact | eapply evs_bnd; [penter; prun | simple]]
  | |- evs _ (fun n => call _ _ n _ _ _) _ _ _ => first [known_exact | penter]
  end
with prun := repeat pstep
with penter := apply evs_call; [lia|]; unfold call_value; simple.
(** While loops: [T] turns *)
Definition whiles (K T : nat) (b : nat -> names -> MM ending) (c : nat -> names -> MM bool) (r : names) (S S' : memory) (o : out ending) : Prop :=
  forall n m, K <= n -> T <= m -> run (while_loop (b n) (c n) m r) S = (S', o).
Lemma whiles_stop K T b c r S S1 : 1 <= T -> evs K (fun n => c n r) S S1 (Done false) -> whiles K T b c r S S1 (Done (Next r)).
Proof.
  intros HT H n [|m] Hn Hm; [lia|]. cbn [while_loop]. rewrite run_bnd, H by lia. reflexivity.
Qed.
Lemma whiles_raise K T b c r S S1 e : 1 <= T -> evs K (fun n => c n r) S S1 (Raised e) -> whiles K T b c r S S1 (Raised e).
Proof.
  intros HT H n [|m] Hn Hm; [lia|]. cbn [while_loop]. rewrite run_bnd, H by lia. reflexivity.
Qed.
Lemma whiles_turn K T T' b c r r2 S S1 S2 S3 o : T < T' ->
  evs K (fun n => c n r) S S1 (Done true) -> evs K (fun n => b n r) S1 S2 (Done (Next r2)) -> whiles K T b c r2 S2 S3 o -> whiles K T' b c r S S3 o.
Proof.
  intros HT H0 H1 H2 n [|m] Hn Hm; [lia|].
  cbn [while_loop]. rewrite run_bnd, H0 by lia. cbv iota beta. rewrite run_bnd, H1 by lia. apply H2; lia.
Qed.
Lemma whiles_evs K T b c r S S' o : T <= K -> whiles K T b c r S S' o -> evs K (fun n => while_loop (b n) (c n) n r) S S' o.
Proof. intros HT H n Hn. apply H; lia. Qed.

Section Errors.
Variable word_char : N -> bool.
Variable parse_string : str -> res document.
Notation C := (call word_char parse_string).
Notation "'gives' k f args v" := (forall K (HK : k <= K) S, evs K (fun n => C n f args []) S S (Done v)) (at level 10, k at level 9, f at level 9, args at level 9, v at level 9).

Definition res_out {A} (g : A -> value) (r : res A) : out value := match r with Ok a => Done (g a) | Raise e => Raised (parser_error e) end.

(** ** Patterns *)
Lemma escape_ok s : gives 1 (VBuiltin "re.escape") [VStr s] (VStr (re_escape s)).
Proof. intros K HK S. penter. prun. Qed.
Hint Resolve escape_ok : exact_bound.
Lemma compile_missing w : exists r, req r (missing_value_pattern w) /\ gives 1 (VBuiltin "re.compile") [VStr (missing_text w); VBuiltin "re.MULTILINE"] (VRegex r).
Proof.
  destruct (missing_pattern word_char w) as (r & E & H). exists r. split; [exact H|]. intros K HK S. penter.
  change (String.eqb "re.MULTILINE" "re.IGNORECASE") with false. change (String.eqb "re.MULTILINE" "re.MULTILINE") with true. rewrite E. simple. prun.
Qed.
Lemma missing_ok self w : exists r, req r (missing_value_pattern w) /\ gives 2 (VMethod self "ErrorHandler" "_match_missing_value_for_attribute") [VStr w] (VRegex r).
Proof.
  destruct (compile_missing w) as (r & H & E). exists r. split; [exact H|]. intros K HK S. penter. prun.
Qed.
Lemma generic_ok self : exists r, req r (generic_missing_pattern word_char) /\ gives 2 (VMethod self "ErrorHandler" "_math_generic_missing_value") [] (VRegex r).
Proof.
  destruct (generic_pattern word_char) as (r & E & H). exists r. split; [exact H|]. intros K HK S. penter. prun.
  change (String.eqb "re.MULTILINE" "re.IGNORECASE") with false. change (String.eqb "re.MULTILINE" "re.MULTILINE") with true.
  change (lit "(<.* )(\w+=(?!([""\'])))?(.*>)") with generic_text. rewrite E. simple. prun.
Qed.
Lemma sub_nothing r p s : req r p -> gives 1 (VBuiltin "re.sub") [VRegex r; VStr []; VStr s] (VStr (re_sub p (fun _ => []) s)).
Proof.
  intros H K HK S. penter. unfold substituted. change (expand [] []) with (Some (@nil N)). cbv iota. rewrite (req_sub r p _ (fun _ => []) s H); [prun | reflexivity].
Qed.
Lemma sub_groups r p s : req r p -> gives 1 (VBuiltin "re.sub") [VRegex r; VStr (lit "\1\3"); VStr s] (VStr (re_sub p expand_1_3 s)).
Proof.
  intros H K HK S. penter. unfold substituted. change (expand (lit "\1\3") []) with (Some (@nil N)). cbv iota. rewrite (req_sub r p _ expand_1_3 s H); [prun|].
  intros g. change (expand (lit "\1\3") g) with (Some (match cap_get g 1 with Some s => s | None => [] end ++ match cap_get g 3 with Some s => s | None => [] end ++ [])).
  cbv iota. rewrite app_nil_r. reflexivity.
Qed.
Lemma search_regex r p s : req r p -> gives 1 (VBuiltin "re.search") [VRegex r; VStr s] (found (re_search p s)).
Proof. intros H K HK S. penter. rewrite (req_search r p s H). prun. Qed.
Hint Resolve sub_nothing sub_groups search_regex : exact_bound.

(** ** _get_word_at_str_pos *)
Definition word_names self s pos start stop : names :=
  [("self", self); ("string", VStr s); ("pos", VInt pos); ("__class__", VClass "ErrorHandler"); ("start", VInt (Z.of_nat start)); ("end", VInt (Z.of_nat stop))].
Lemma pred_nat p : (Z.of_nat (S p) - 1 = Z.of_nat p)%Z.
Proof. lia. Qed.
Lemma succ_nat p : (Z.of_nat p + 1 = Z.of_nat (S p))%Z.
Proof. lia. Qed.
Lemma index_nat {A} (l : list A) i : py_index l (Z.of_nat i) = nth_error l i.
Proof. unfold py_index. destruct (Z.leb_spec 0 (Z.of_nat i)); [|lia]. rewrite Nat2Z.id. reflexivity. Qed.
Lemma skipn_cons {A} (l : list A) i c rest : skipn i l = c :: rest -> nth_error l i = Some c /\ skipn (Datatypes.S i) l = rest.
Proof.
  revert i. induction l as [|a l IH]; intros [|i] H; cbn in *; try discriminate.
  - inversion H. auto.
  - apply IH in H. destruct H as (H1 & H2). split; [exact H1|]. destruct l; exact H2.
Qed.
Lemma nth_some {A} (l : list A) i a : nth_error l i = Some a -> i < length l.
Proof. intros H. apply nth_error_Some. congruence. Qed.
Lemma nat_positive n : (0 <=? Z.of_nat n)%Z = true.
Proof. apply Z.leb_le. lia. Qed.
Lemma one_char c d : str_eqb [c] [d] = N.eqb c d.
Proof. unfold str_eqb. cbn. destruct (N.eqb c d); reflexivity. Qed.
Lemma word_ok self s pos S K (HK : length s + 2 <= K) :
  evs K (fun n => C n (VMethod self "ErrorHandler" "_get_word_at_str_pos") [VStr s; VInt (Z.of_nat pos)] []) S S
    (match get_word_at_str_pos s pos with Some w => Done (VStr w) | None => Raised index_error end).
Proof.
  penter. 
  match goal with |- evs _ (fun n => bnd (bnd (while_loop (@?b n) (@?c n) n ?r) _) _) _ _ _ => set (body := b); set (cond := c) end.
  assert (W : forall start, match word_start s start with
    | Some st => whiles (pred K) (Datatypes.S (Nat.min start (length s))) body cond (word_names self s (Z.of_nat pos) start pos) S S (Done (Next (word_names self s (Z.of_nat pos) st pos)))
    | None => whiles (pred K) (Datatypes.S (Nat.min start (length s))) body cond (word_names self s (Z.of_nat pos) start pos) S S (Raised index_error)
    end).
  { induction start as [|p IH]; cbn [word_start].
    - apply whiles_stop; [lia|]. subst cond. simple. prun.
    - assert (P : (0 <? Z.of_nat (Datatypes.S p))%Z = true) by (apply Z.ltb_lt; lia).
      destruct (nth_error s p) as [c|] eqn:E.
      + destruct (N.eqb c 32) eqn:Ec.
        * apply whiles_stop; [lia|]. subst cond. simple. rewrite pred_nat, index_nat, E. simple. change (lit " ") with [32%N]. rewrite one_char, Ec. simple. prun.
        * destruct (word_start s p) as [st|]; (eapply whiles_turn; [| | |exact IH]; [apply nth_some in E; lia| |]).
          all: subst cond body; simple; rewrite ?pred_nat, ?index_nat, ?E; simple; change (lit " ") with [32%N]; rewrite ?one_char, ?Ec; simple; prun.
      + apply whiles_raise; [lia|]. subst cond. simple. rewrite pred_nat, index_nat, E. simple. prun. }
  specialize (W pos). unfold get_word_at_str_pos. destruct (word_start s pos) as [st|].
  2: { apply evs_bnd_raised. apply evs_bnd_raised. apply whiles_evs in W; [exact W | lia]. }
  apply evs_assoc. eapply evs_bnd; [apply whiles_evs in W; [exact W | lia]|]. clear W body cond. simple.
  match goal with |- evs _ (fun n => bnd (bnd (while_loop (@?b n) (@?c n) n ?r) _) _) _ _ _ => set (body := b); set (cond := c) end.
  assert (W : forall rest stop, skipn stop s = rest ->
    whiles (pred K) (Datatypes.S (length rest)) body cond (word_names self s (Z.of_nat pos) st stop) S S (Done (Next (word_names self s (Z.of_nat pos) st (stop + word_len rest))))).
  { induction rest as [|c rest IH]; intros stop E; cbn [word_len].
    - rewrite Nat.add_0_r. apply whiles_stop; [lia|]. subst cond. simple. prun.
      assert (P : Nat.ltb stop (length s) = false).
      { apply Nat.ltb_ge. pose proof (skipn_length stop s) as Q. rewrite E in Q. cbn in Q. lia. }
      rewrite P. simple. prun.
    - assert (P : Nat.ltb stop (length s) = true).
      { apply Nat.ltb_lt. pose proof (skipn_length stop s) as Q. rewrite E in Q. cbn in Q. lia. }
      assert (N : nth_error s stop = Some c).
      { apply (skipn_cons _ _ _ _ E). }
      destruct (N.eqb c 32) eqn:E1; [|destruct (N.eqb c 62) eqn:E2]; cbn [orb].
      + rewrite Nat.add_0_r. apply whiles_stop; [lia|]. subst cond. simple. prun. rewrite ?P. simple. rewrite ?index_nat, N. simple. change (lit " ") with [32%N]. rewrite one_char, E1. simple. prun.
      + rewrite Nat.add_0_r. apply whiles_stop; [lia|]. subst cond. simple. prun. rewrite ?P. simple. rewrite ?index_nat, N. simple. change (lit " ") with [32%N]. change (lit ">") with [62%N].
        rewrite !one_char, E1, E2. simple. prun.
      + replace (stop + Datatypes.S (word_len rest)) with (Datatypes.S stop + word_len rest) by lia.
        eapply whiles_turn; [| | |apply IH]; [cbn [length]; lia| | |].
        * subst cond. simple. prun. rewrite ?P. simple. rewrite ?index_nat, N. simple. change (lit " ") with [32%N]. change (lit ">") with [62%N].
          rewrite !one_char, E1, E2. simple. prun.
        * subst body. simple. rewrite succ_nat. prun.
        * apply (skipn_cons _ _ _ _ E). }
  specialize (W (skipn pos s) pos eq_refl). rewrite skipn_length in W. apply evs_assoc. eapply evs_bnd; [apply whiles_evs in W; [exact W | lia]|]. clear W body cond. simple.
  rewrite !nat_positive. simple. rewrite !Nat2Z.id. prun.
Qed.

(** ** _fix_missing_attribute_value *)
Definition handler k := VObj "ErrorHandler" [("error_locator", VDict k)].
Lemma value_ok k code lineno offset xml S K (HK : length xml + 3 <= K) :
  evs K (fun n => C n (VMethod (handler k) "ErrorHandler" "_fix_missing_attribute_value") [parser_error (EExpat code lineno offset); VStr xml] []) S S
    (res_out VStr (fix_missing_attribute_value code lineno offset xml)).
Proof.
  unfold fix_missing_attribute_value, handler. unfold parser_error. penter.
  destruct (Nat.eqb code 4); simple; prun.
  destruct (py_index (split_on 10 xml) (Z.of_nat lineno - 1)) as [line|] eqn:EL; simple; [|prun].
  pose proof (LemCount.split_length _ _ _ (LemCount.py_index_in _ _ _ EL)) as QL.
  pose proof (word_ok (VObj "ErrorHandler" [("error_locator", VDict k)]) line offset S (pred K) ltac:(lia)) as W.
  destruct (get_word_at_str_pos line offset) as [w|].
  - destruct (missing_ok (VObj "ErrorHandler" [("error_locator", VDict k)]) w) as (r & Hr & E). prun.
  - prun.
Qed.

(** ** _fix_missing_attribute and fix_error *)
Definition generic_names k code lineno offset xml result r i : names :=
  [("self", handler k); ("error", parser_error (EExpat code lineno offset)); ("xml", VStr xml); ("__class__", VClass "ErrorHandler");
   ("result", VStr result); ("pattern", VRegex r); ("counter", VInt i)].
Lemma missing_attribute_ok k code lineno offset xml S K (HK : length xml + 9 <= K) :
  evs K (fun n => C n (VMethod (handler k) "ErrorHandler" "_fix_missing_attribute") [parser_error (EExpat code lineno offset); VStr xml] []) S S
    (res_out VStr (fix_missing_attribute word_char code lineno offset xml)).
Proof.
  pose proof (value_ok k code lineno offset xml S (pred K) ltac:(lia)) as W. unfold fix_missing_attribute. penter.
  destruct (fix_missing_attribute_value code lineno offset xml) as [result|e]; cbn [res_out] in W; [|prun].
  do 2 apply evs_assoc. eapply evs_bnd; [exact W|]. simple.
  destruct (str_eqb result xml); simple; [|prun].
  destruct (generic_ok (handler k)) as (r & Hr & G). unfold handler in *. simple. apply evs_assoc, evs_assoc. eapply evs_bnd; [apply G; lia|]. simple.
  match goal with |- evs _ (fun n => bnd (bnd (while_loop (@?b n) (@?c n) n ?r) _) _) _ _ _ => set (body := b); set (cond := c) end.
  assert (B : forall i y, evs (pred K) (fun n => body n (generic_names k code lineno offset xml y r i)) S S (Done (Next (generic_names k code lineno offset xml (re_sub (generic_missing_pattern word_char) expand_1_3 xml) r (i + 1)%Z)))).
  { intros i y. subst body. simple. prun. }
  assert (Q : forall i y, evs (pred K) (fun n => cond n (generic_names k code lineno offset xml y r i)) S S (Done (re_search (generic_missing_pattern word_char) xml && (i <? 5)%Z))).
  { intros i y. subst cond. simple. apply evs_assoc. eapply evs_bnd; [apply search_regex; [exact Hr | lia]|].
    destruct (re_search (generic_missing_pattern word_char) xml); cbn [found]; simple; prun. }
  assert (W' : whiles (pred K) 6 body cond (generic_names k code lineno offset xml result r 0) S S (Done (Next (generic_names k code lineno offset xml
       (generic_loop word_char 5 xml result) r (if re_search (generic_missing_pattern word_char) xml then 5 else 0))))).
  { unfold generic_loop. destruct (re_search (generic_missing_pattern word_char) xml) eqn:E.
    - do 5 (eapply whiles_turn; [apply Nat.lt_succ_diag_r | apply Q | apply B |]). apply whiles_stop; [lia|]. apply Q.
    - apply whiles_stop; [lia|]. apply Q. }
  apply whiles_evs in W'; [|lia]. apply evs_assoc. eapply evs_bnd; [exact W'|]. clear W' body cond B Q. simple. prun.
Qed.
Lemma fix_error_ok k e xml S K (HK : length xml + 10 <= K) :
  evs K (fun n => C n (VMethod (handler k) "ErrorHandler" "fix_error") [VStr xml; parser_error e] []) S S (res_out VStr (fix_error word_char xml e)).
Proof.
  destruct e as [t a b c| |code lineno offset|n]; cbn [fix_error].
  1,2,4: unfold handler, parser_error; penter; prun.
  pose proof (missing_attribute_ok k code lineno offset xml S (pred K) ltac:(lia)) as W. unfold handler in *. unfold parser_error in W |- *. penter.
  destruct (fix_missing_attribute word_char code lineno offset xml); cbn [res_out] in *; prun.
Qed.
End Errors.
