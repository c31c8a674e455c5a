(** The source of normalizer.py, of wrapper.py and of the converter of syntax.py gives what the model gives. *)
From Coq Require Import String.
From Verif Require Export LemPy.
Local Open Scope string_scope.
Local Open Scope list_scope.

Ltac same_text := f_equal; rewrite ?app_nil_r, <- ?app_assoc; reflexivity.
Ltac decided := repeat match goal with
  | |- context [if ?b then _ else _] => known_term b
  end.
Ltac known_call := solve [eauto 2 with py nocore].
Ltac special_step := fail.
Ltac step := first [special_step |
  match goal with
  | |- calc _ _ (fun n => Ret _) _ => apply calc_eq; decided; try reflexivity; try same_text
  | |- calc _ _ (fun n => bnd (bnd _ _) _) _ => apply calc_assoc
  | |- calc _ _ (fun n => bnd (Act _ _) _) _ => cbn [bnd]
  | |- calc _ _ (fun n => bnd _ (fun a => Ret a)) _ => apply calc_last
  | |- calc _ _ (fun n => bnd (if ?b then _ else _) _) _ => known_term b; simplify
  | |- calc _ _ (fun n => if ?b then _ else _) _ => known_term b; simplify
  | |- calc _ _ (fun n => bnd (if negb ?b then _ else _) _) _ => destruct b eqn:?; cbn [negb]; simplify
  | |- calc _ _ (fun n => if negb ?b then _ else _) _ => destruct b eqn:?; cbn [negb]; simplify
  | |- calc _ _ (fun n => bnd (if ?b then _ else _) _) _ => destruct b eqn:?; simplify
  | |- calc _ _ (fun n => if ?b then _ else _) _ => destruct b eqn:?; simplify
  | H : nth_error (dicts _) ?r = Some _ |- calc _ _ (fun n => Act (with_dict ?r _) _) _ => eapply calc_dict; [exact H | simplify]
  | H : nth_error (objects _) ?r = Some _ |- calc _ _ (fun n => Act (with_object ?r _) _) _ => eapply calc_object; [exact H | reflexivity | simplify]
  | |- calc _ _ (fun n => Act new_dict _) _ => let S := fresh "S" in let r := fresh "r" in let G := fresh "G" in let H := fresh "H" in
      apply calc_new_dict; intros S r G H; simplify
  | |- calc _ _ (fun n => bnd _ _) _ => eapply calc_bnd; [first [known_call | enter; run_all] | simplify]
  | |- calc _ _ (fun n => call _ _ n _ _ _) _ => first [known_call | eapply calc_value; [known_call | decided; try reflexivity; try same_text] | enter]
  end]
with run_all := repeat step.
Ltac loop Inv :=
  match goal with
  | |- calc ?K ?S0 (fun n => bnd (for_loop (@?b n) ?xs ?l ?r) _) _ =>
      let F := fresh in
      assert (F : exists r', calc K S0 (fun n => for_loop (b n) xs l r) (Next r') /\ Inv [] r');
      [apply (calc_for S0 b xs Inv) | let r' := fresh "r'" in let E := fresh "E" in destruct F as (r' & E & H'); eapply calc_bnd; [exact E | simplify]]
  end.

Section Sem.
Variable word_char : N -> bool.
Variable parse_string : str -> res document.
Notation C := (call word_char parse_string).
Notation "'gives' k f args v" := (forall K (HK : k <= K) S0, calc K S0 (fun n => C n f args []) v) (at level 10, k at level 9, f at level 9, args at level 9, v at level 9).

(** ** normalizer.py *)
Definition normalizer := VObj "WhiteSpaceNormalizer" [].
Lemma normalize_ok s : gives 3 (VMethod normalizer "WhiteSpaceNormalizer" "normalize") [VStr s] (VStr (normalize s)).
Proof. enter. run_all. Qed.
Hint Resolve normalize_ok : py.

(** ** wrapper.py *)
Definition parenthesis_wrapper := VObj "ParenthesisWrapper" [("_open", VStr (lit "\left(")); ("_close", VStr (lit "\right)"))].
Definition bracket_wrapper := VObj "BracketWrapper" [("_open", VStr (lit "{")); ("_close", VStr (lit "}"))].
Lemma parenthesis_wrapper_ok : gives 3 (VClass "ParenthesisWrapper") [] parenthesis_wrapper.
Proof. enter. run_all. Qed.
Lemma bracket_wrapper_ok : gives 3 (VClass "BracketWrapper") [] bracket_wrapper.
Proof. enter. run_all. Qed.
Lemma paren_wrap_ok s : gives 3 (VMethod parenthesis_wrapper "ParenthesisWrapper" "wrap") [VStr s] (VStr (paren_wrap s)).
Proof. enter. run_all. Qed.
Lemma bracket_wrap_ok s : gives 3 (VMethod bracket_wrapper "BracketWrapper" "wrap") [VStr s] (VStr (bracket_wrap s)).
Proof. enter. run_all. Qed.
Hint Resolve parenthesis_wrapper_ok bracket_wrapper_ok paren_wrap_ok bracket_wrap_ok : py.
Lemma paren_wrap_if_ok s :
  gives 3 (VMethod parenthesis_wrapper "ParenthesisWrapper" "wrap_if_more_than_one_char") [VStr s] (VStr (paren_wrap_if_more_than_one_char s)).
Proof. unfold paren_wrap_if_more_than_one_char. enter. run_all. Qed.
Hint Resolve paren_wrap_if_ok : py.
Definition generic_wrapper op close := VObj "GenericWrapper" [("_open", VStr (lit "\left" ++ op)); ("_close", VStr (lit "\right" ++ close))].
Lemma generic_wrapper_ok op close : gives 3 (VClass "GenericWrapper") [VStr op; VStr close] (generic_wrapper op close).
Proof. enter. run_all. Qed.
Lemma generic_wrap_ok op close s : gives 3 (VMethod (generic_wrapper op close) "GenericWrapper" "wrap") [VStr s] (VStr (generic_wrap op close s)).
Proof. enter. run_all. Qed.
Hint Resolve generic_wrapper_ok generic_wrap_ok : py.

(** JoinWithManySeparators *)
Definition joiner seps := VObj "JoinWithManySeparators" [("_separators", VList (map VStr seps))].
Lemma joiner_ok seps : gives 3 (VClass "JoinWithManySeparators") [VList (map VStr seps)] (joiner seps).
Proof. enter. run_all. Qed.
Lemma sep_get_ok seps i : gives 3 (VMethod (joiner seps) "JoinWithManySeparators" "_get") [VInt (Z.of_nat i)] (VStr (sep_get seps i)).
Proof.
  unfold sep_get. enter. run_all. 
  - apply Nat.ltb_lt in Heqb. rewrite (index_nth seps i ([] : str)) by exact Heqb. simplify. run_all. 
  - apply Nat.ltb_lt in Heqb0. rewrite (index_last seps ([] : str)) by exact Heqb0. simplify. run_all. 
Qed.
Hint Resolve joiner_ok sep_get_ok : py.
Lemma eqb_last i k : (Z.of_nat i =? Z.of_nat (S k) - 1)%Z = Nat.eqb i (S k - 1).
Proof. destruct (Nat.eqb_spec i (S k - 1)); [apply Z.eqb_eq | apply Z.eqb_neq]; lia. Qed.
Lemma join_ok seps arr : gives 4 (VMethod (joiner seps) "JoinWithManySeparators" "join") [VList (map VStr arr)] (VStr (sep_join seps arr)).
Proof.
  enter. run_all.
  set (Inv := fun (l : list value) (r : names) => exists i rest acc,
    l = map (fun p => VList [VInt (fst p); snd p]) (numbered (Z.of_nat i) (map VStr rest))
    /\ (rest = [] \/ arr <> []) /\ lookup r "self" = Some (joiner seps) /\ lookup r "arr" = Some (VList (map VStr arr))
    /\ lookup r "acc" = Some (VStr acc) /\ sep_join_loop seps (length arr) i rest acc = sep_join seps arr).
  loop Inv.
  - intros v l r (i & [|cur rest] & acc & El & Ha & H1 & H2 & H3 & H4); [discriminate|]. injection El as -> ->.
    destruct Ha as [Ha|Ha]; [discriminate|].
    assert (En : exists k, length arr = S k) by (destruct arr as [|a arr']; [congruence | exists (length arr'); reflexivity]).
    destruct En as (k & En). cbn in H4. rewrite En in H4.
    pose proof (eqb_last i k) as Hz. rewrite <- En in Hz at 1.
    destruct (Nat.eqb i (S k - 1)) eqn:Hi; (do 2 eexists; split; [|split; [left; reflexivity|]]).
    1, 3: simplify; run_all.
    1, 2: exists (S i), rest; eexists; split; [repeat f_equal; lia|]; split; [right; exact Ha|]; simplify; rewrite En; repeat split; exact H4.
  - exists 0, arr, []. split; [reflexivity|]. split; [destruct arr; [left | right]; congruence|]. repeat split; reflexivity.
  - destruct H' as (i & [|cur rest] & acc & El & Ha & H1 & H2 & H3 & H4); [|discriminate]. rewrite H3. simplify. run_all. rewrite <- H4. reflexivity.
Qed.
Hint Resolve join_ok : py.

(** ** syntax.py *)
Definition matches (r : regex) (s : str) : bool := match re_match r s with Some _ => true | None => false end.
Lemma match_alnum s :
  gives 1 (VBuiltin "re.match") [VStr (lit "[a-z0-9]"); VStr s; VBuiltin "re.IGNORECASE"] (found (matches (RChar alnum_ignorecase) s)).
Proof.
  enter. destruct (alnum_pattern word_char) as (r & E & H). rewrite E. simplify. rewrite (req_match _ _ s H). run_all.
Qed.
Hint Resolve match_alnum : py.
Definition utf8_converter := VObj "HashUTF8ToLtXConverter" [].
Definition accent_value (a : accent_char) := VObj "AccentChar" [("char", VStr (ac_char a)); ("accent", VStr (ac_accent a))].
Definition text_or_none (o : option str) : value := match o with Some s => VStr s | None => VNone end.
Lemma accent_ok a :
  gives 3 (VMethod utf8_converter "HashUTF8ToLtXConverter" "convert_accent_char_to_ltx") [accent_value a] (text_or_none (convert_accent_char_to_ltx a)).
Proof.
  unfold convert_accent_char_to_ltx. destruct (dget accent_to_ltx_cmd (ac_accent a)) as [cmd|] eqn:E; enter; run_all.
Qed.
Lemma special_ok char :
  gives 3 (VMethod utf8_converter "HashUTF8ToLtXConverter" "convert_special_char_to_ltx") [VStr char] (text_or_none (convert_special_char_to_ltx char)).
Proof.
  unfold convert_special_char_to_ltx. destruct (dget special_font_chars char) as [f|] eqn:E; enter; run_all.
Qed.
Hint Resolve accent_ok special_ok : py.
Lemma utf8_ok char : gives 4 (VMethod utf8_converter "HashUTF8ToLtXConverter" "convert") [VStr char] (VStr (utf8_convert char)).
Proof.
  unfold utf8_convert. pose proof (match_alnum char) as Hm. unfold matches in Hm.
  destruct (re_match (RChar alnum_ignorecase) char) as [m|]; [enter; run_all|].
  destruct (dget vowels_with_accents char) as [a|] eqn:E.
  - pose proof (accent_ok a) as Ha. destruct (convert_accent_char_to_ltx a) as [cmd|]; enter; run_all.
  - pose proof (special_ok char) as Ha. destruct (convert_special_char_to_ltx char) as [cmd|]; enter; run_all. 
Qed.
Hint Resolve utf8_ok : py.
End Sem.
Global Hint Resolve normalize_ok parenthesis_wrapper_ok bracket_wrapper_ok paren_wrap_ok bracket_wrap_ok paren_wrap_if_ok generic_wrapper_ok
  generic_wrap_ok joiner_ok join_ok match_alnum utf8_ok : py.
