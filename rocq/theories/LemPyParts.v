(** Parts of the library used by themselves, in the source. *)
From Coq Require Import String.
From Verif Require Export SpecParts LemPyElements.
Local Open Scope string_scope.
Local Open Scope list_scope.

Section Parts.
Variable word_char : N -> bool.
Variable parse_string : str -> res document.
Notation C := (call word_char parse_string).
Lemma ends_evs K r e S S' o : evs K (fun n => eval (C n) r e) S S' o -> expression_ends word_char parse_string r e S S' o.
Proof. intros H. exists K. exact H. Qed.
Theorem new_adapter_source S : expression_ends word_char parse_string [] new_adapter S
  (Memory (dicts S ++ [[]]) (objects S ++ [adapter_object (length (dicts S)) []])) (Done (VRef (length (objects S)))).
Proof. apply (ends_evs 3). change (evs 3 (fun n => C n (VFunction "make_xml_to_mathml_adapter") [] []) S (Memory (dicts S ++ [[]]) (objects S ++ [xml_object [] (length (dicts S))])) (Done (VRef (length (objects S))))). apply factory_ok. lia. Qed.
Theorem adapter_source r k y x S : nth_error (objects S) r = Some (adapter_object k y) ->
  let result := adapter_convert word_char parse_string y x (dicts S) in
  expression_ends word_char parse_string [("adapter", VRef r); ("text", VStr x)] adapter_call S
    (Memory (fst (snd result)) (put (objects S) r (adapter_object k (fst result)))) (elements_or_error (snd (snd result))).
Proof.
  intros H. cbv zeta. set (K := length (clean x) + 12 + (2 * list_max (map node_height (found_nodes word_char parse_string x)) + 5)).
  assert (T : text_is r k y S) by exact H.
  pose proof (elements_ok word_char parse_string r k (clean x) (with_text r k (clean x) S) K ltac:(lia) (with_text_is _ _ _ _ _ T) (one_line x)) as E.
  rewrite with_text_twice in E.
  destruct (adapter_convert_ok word_char parse_string r k y (fun l => l) x (dicts S) S K ltac:(lia) T) as (suf & y' & Eh & -> & V); [intros l Hl; lia | lia | exact E |].
  rewrite Eh.
  assert (O : outcome (fun els => VList (map (elem_value (fun l => l)) els)) (snd (snd (adapter_convert word_char parse_string y x (dicts S)))) = elements_or_error (snd (snd (adapter_convert word_char parse_string y x (dicts S))))).
  { destruct (snd (snd (adapter_convert word_char parse_string y x (dicts S)))); [|reflexivity]. cbn [outcome elements_or_error]. do 2 f_equal. apply map_ext. intros e. symmetry. apply object_of_value. }
  rewrite <- O. apply (ends_evs (Datatypes.S K)).
  change (evs (Datatypes.S K) (fun n => g <~ attribute (C n) (VRef r) "convert" ; C n g [VStr x] []) S (more (with_text r k (fst (adapter_convert word_char parse_string y x (dicts S))) S) suf)
    (outcome (fun els => VList (map (elem_value (fun l => l)) els)) (snd (snd (adapter_convert word_char parse_string y x (dicts S)))))).
  unfold text_is, xml_object in T. simple. prun.
Qed.
Theorem fix_source x e S : expression_ends word_char parse_string [("text", VStr x); ("error", parser_error e)] fix_call S
  (Memory (dicts S ++ [[]]) (objects S)) (as_source (fix_error word_char x e)).
Proof.
  set (K := length x + 10). apply (ends_evs K). pose proof (fix_error_ok word_char parse_string (length (dicts S)) e x (Memory (dicts S ++ [[]]) (objects S)) K ltac:(lia)) as W.
  unfold handler in W.
  replace (as_source (fix_error word_char x e)) with (res_out VStr (fix_error word_char x e)) by (destruct (fix_error word_char x e); reflexivity).
  change (evs K (fun n => v <~ (v <~ C n (VClass "ErrorHandler") [] [] ; attribute (C n) v "fix_error") ; C n v [VStr x; parser_error e] []) S (Memory (dicts S ++ [[]]) (objects S)) (res_out VStr (fix_error word_char x e))).
  repeat apply evs_assoc. eapply evs_bnd; [penter; eapply evs_act; [unfold new_dict; reflexivity | apply evs_ret]|]. simple. exact W.
Qed.
Theorem nodes_source ns S : Forall element_node ns ->
  expression_ends word_char parse_string [("nodes", VList (map VNode ns))] nodes_call S
    (Memory (fst (convert_elements ns (dicts S))) (objects S)) (Done (VList (map object_of (snd (convert_elements ns (dicts S)))))).
Proof.
  intros F. set (K := 2 * list_max (map node_height ns) + 5). apply (ends_evs K).
  destruct (convert_ok word_char parse_string (fun l => l) ns (dicts S) S K ltac:(lia)) as (suf & E & V).
  { eapply Forall_impl; [|exact F]. intros n (t & a & c & ->). reflexivity. }
  { intros l Hl. lia. }
  rewrite E. rewrite (map_ext object_of (elem_value (fun l => l)) object_of_value).
  change (evs K (fun n => v <~ (v <~ C n (VClass "ElementsToMathMLAdapter") [] [] ; attribute (C n) v "convert") ; C n v [VList (map VNode ns)] []) S (more S suf) (Done (VList (map (elem_value (fun l => l)) (snd (convert_elements ns (dicts S))))))).
  repeat apply evs_assoc. eapply evs_bnd; [penter; apply evs_ret|]. simple. exact V.
Qed.
Lemma firstn_more {A} (l m : list A) : firstn (length l) (l ++ m) = l.
Proof. rewrite firstn_app, firstn_all, Nat.sub_diag, app_nil_r. reflexivity. Qed.
Lemma calc_gives r e v K : (forall S0, calc K S0 (fun n => eval (C n) r e) v) -> expression_gives word_char parse_string r e v.
Proof.
  intros H S. destruct (H S S (grown_refl S)) as (S' & (ds & os & Ed & Eo) & E). exists S'. split; [exists K; exact E|]. rewrite Ed, Eo. split; apply firstn_more.
Qed.
Hint Resolve utf8_ok normalize_ok parenthesis_wrapper_ok bracket_wrapper_ok paren_wrap_ok bracket_wrap_ok generic_wrapper_ok generic_wrap_ok joiner_ok join_ok paren_wrap_if_ok : py.
Ltac part := eapply (calc_gives _ _ _ 12); intros S0; simple; run_all.
Theorem accents_source x : expression_gives word_char parse_string [("text", VStr x)] accents_call (VStr (utf8_convert x)).
Proof. part. Qed.
Theorem normalize_source x : expression_gives word_char parse_string [("text", VStr x)] normalize_call (VStr (normalize x)).
Proof. part. Qed.
Theorem join_source seps l : expression_gives word_char parse_string [("separators", texts seps); ("texts", texts l)] join_call (VStr (sep_join seps l)).
Proof. part. Qed.
Theorem wrap_source op close x : expression_gives word_char parse_string [("open", VStr op); ("close", VStr close); ("text", VStr x)] wrap_call (VStr (generic_wrap op close x)).
Proof. part. Qed.
Theorem bracket_source x : expression_gives word_char parse_string [("text", VStr x)] bracket_call (VStr (bracket_wrap x)).
Proof. part. Qed.
Theorem parenthesis_source x : expression_gives word_char parse_string [("text", VStr x)] parenthesis_call (VStr (paren_wrap x)).
Proof. part. Qed.
Theorem long_parenthesis_source x : expression_gives word_char parse_string [("text", VStr x)] long_parenthesis_call (VStr (paren_wrap_if_more_than_one_char x)).
Proof. part. Qed.
Theorem wraps_source op close x :
  expression_gives word_char parse_string [("open", VStr op); ("close", VStr close); ("text", VStr x)] wrap_call (VStr (lit "\left" ++ op ++ x ++ lit "\right" ++ close))
  /\ expression_gives word_char parse_string [("text", VStr x)] bracket_call (VStr (lit "{" ++ x ++ lit "}"))
  /\ expression_gives word_char parse_string [("text", VStr x)] parenthesis_call (VStr (lit "\left(" ++ x ++ lit "\right)"))
  /\ expression_gives word_char parse_string [("text", VStr x)] long_parenthesis_call
       (VStr (match x with _ :: _ :: _ => lit "\left(" ++ x ++ lit "\right)" | _ => x end)).
Proof.
  split; [|split; [apply bracket_source|split; [apply parenthesis_source|]]].
  - pose proof (wrap_source op close x) as W. unfold generic_wrap, wrap in W. rewrite <- app_assoc in W. exact W.
  - pose proof (long_parenthesis_source x) as W. destruct x as [|a [|b x]]; exact W.
Qed.
End Parts.
