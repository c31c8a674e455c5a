(** xml_to_mathml/factory.py and converter.py: the source of the library does what the model does. *)
From Coq Require Import String.
From Verif Require LemRecovery.
From Verif Require Export LemPyXml.
Local Open Scope string_scope.
Local Open Scope list_scope.

Section Main.
Variable word_char : N -> bool.
Variable parse_string : str -> res document.
Notation C := (call word_char parse_string).

Lemma factory_ok S K (HK : 3 <= K) : evs K (fun n => C n (VFunction "make_xml_to_mathml_adapter") [] []) S
  (Memory (dicts S ++ [[]]) (objects S ++ [xml_object [] (length (dicts S))])) (Done (VRef (length (objects S)))).
Proof.
  penter. prun; [eapply evs_act; [unfold new_dict; reflexivity | apply evs_ret]|].
  eapply evs_act; [unfold new_object; cbn [dicts objects]; reflexivity|]. simple.
  do 3 (eapply evs_act; [unfold set_field; cbn [objects]; rewrite last_nth; cbn [dicts objects]; rewrite last_put; reflexivity|]; simple).
  apply evs_ret.
Qed.

Section Converters.
Variable pi : loc -> nat.
Variable L : loc -> Prop.
Notation R := (R pi L).
Notation el := (elem_value pi).
Definition making (n : nat) (w : value) : MM (list value) :=
  u <~ (g <~ (v <~ C n (VClass "MathMLElementToLatexConverterAdapter") [] [] ; attribute (C n) v "to_latex_converter") ; C n g [w] []) ; Ret [u].
Definition ready (K : nat) (w : value) (c : converter) : Prop := forall h S, R h S -> sims pi L K (converting word_char parse_string w) S (c h) VStr.
Lemma make_all_ok els D K (HK : 2 <= K) (HD : D <= K) : Forall (LemPySim.kid_ok pi L word_char parse_string D) els -> forall h S, R h S ->
  exists ws S', R (fst (make_all els h)) S' /\ evs K (fun n => mapM (making n) (map el els)) S S' (Done (map (fun w => [w]) ws)) /\ Forall2 (ready K) ws (snd (make_all els h)).
Proof.
  induction 1 as [|e els He _ IH]; intros h S H; cbn [make_all map mapM].
  - exists [], S. split; [exact H|]. split; [apply evs_ret | constructor].
  - destruct (He K HD h S H) as (w & S1 & H1 & E1 & W). destruct (to_latex_converter e h) as [h1 c]. cbn [fst snd] in *.
    destruct (IH h1 S1 H1) as (ws & S2 & H2 & E2 & F). destruct (make_all els h1) as [h2 cs]. cbn [fst snd] in *.
    exists (w :: ws), S2. split; [exact H2|]. split; [|constructor; [exact W | exact F]].
    cbn [map]. eapply evs_bnd; [unfold making; repeat apply evs_assoc; eapply evs_bnd; [penter; apply evs_ret|]; simple; eapply evs_bnd; [exact E1 | apply evs_ret]|]. cbv beta. eapply evs_bnd; [exact E2 | apply evs_ret].
Qed.
Definition running (n : nat) (w : value) : MM (list value) := u <~ converting word_char parse_string w n ; Ret [u].
Lemma run_all_ok ws cs K : Forall2 (ready K) ws cs -> forall h S, R h S ->
  sims pi L K (fun n => mapM (running n) ws) S (ModelXml.run_all cs h) (fun ss => map (fun s => [VStr s]) ss).
Proof.
  induction 1 as [|w c ws cs Hw _ IH]; intros h S H; cbn [ModelXml.run_all mapM].
  - eapply sims_ret; [exact H | reflexivity].
  - eapply sims_assoc. eapply sims_bnd; [apply Hw; exact H|]. intros s h1 S1 H1. cbn [bnd].
    eapply sims_bnd; [apply IH; exact H1|]. intros ss h2 S2 H2. eapply sims_ret; [exact H2 | reflexivity].
Qed.
End Converters.

Definition with_adapter (S : memory) : memory := Memory (dicts S ++ [[]]) (objects S ++ [xml_object [] (length (dicts S))]).
Theorem source_bound x h S K : 2 * list_max (map node_height (found_nodes word_char parse_string x)) + 14 <= K ->
  evs K (fun n => C n (VMethod (VRef (length (objects S))) "XmlToMathMLAdapter" "_mathml_elements") [] []) (with_text (length (objects S)) (length (dicts S)) (clean x) (with_adapter S))
    (with_text (length (objects S)) (length (dicts S)) (fst (parse_loop word_char parse_string 5 (clean x) None)) (with_adapter S))
    (outcome nodes_value (snd (parse_loop word_char parse_string 5 (clean x) None))) ->
  exists S', evs (2 + K) (fun n => C n (VMethod VNone "MathMLToLaTeX" "convert") [VStr x] []) S S' (outcome VStr (snd (mathml_to_latex word_char parse_string x h))).
Proof.
  intros HK W. pose proof (factory_ok S (1 + K) ltac:(lia)) as F. fold (with_adapter S) in F. set (S1 := with_adapter S) in *. set (r := length (objects S)) in *. set (k := length (dicts S)) in *.
  set (pi := fun l => length (dicts S1) + (l - length h)).
  assert (T : text_is r k [] S1) by apply last_nth.
  destruct (adapter_convert_ok word_char parse_string r k [] pi x h S1 K ltac:(lia) T (fun l _ => eq_refl) ltac:(lia) W) as (suf & y & Eh & _ & V). fold adapter_new in V, Eh.
  unfold mathml_to_latex. destruct (adapter_convert word_char parse_string adapter_new x h) as [y' [h1 [els|e]]] eqn:EA; cbn [fst snd outcome] in *.
  all: pose proof T as N; unfold text_is, xml_object in N.
  2: { eexists. penter. cbn [pred Nat.add] in *. prun. }
  set (S2 := more (with_text r k y S1) suf) in *. set (L := fun l => length h <= l < length h1).
  assert (H : R pi L h1 S2).
  { intros l (Hl1 & Hl2). split; [exact Hl2|]. subst h1. rewrite app_length in Hl2. unfold S2, more, with_text, pi, hget. cbn [dicts].
    rewrite nth_error_app2, app_nth2 by lia. replace (length (dicts S1) + (l - length h) - length (dicts S1)) with (l - length h) by lia.
    apply nth_error_nth'. lia. }
  assert (I : Forall (LemPySim.kid_ok pi L word_char parse_string (2 * list_max (map height els) + 14)) els).
  { apply Forall_forall. intros e He K1 HK1. pose proof (height_in _ _ He). apply element_ok; [| |lia].
    - intros l l' (A & _) (B & _) D. unfold pi in D. lia.
    - assert (X : els = snd (convert_elements (match snd (parse_loop word_char parse_string 5 (remove_ms_word_prefixes (remove_line_breaks x)) None) with Ok ns => ns | Raise _ => [] end) h)
        /\ h1 = fst (convert_elements (match snd (parse_loop word_char parse_string 5 (remove_ms_word_prefixes (remove_line_breaks x)) None) with Ok ns => ns | Raise _ => [] end) h)).
      { unfold adapter_convert in EA. destruct (parse_loop word_char parse_string 5 (remove_ms_word_prefixes (remove_line_breaks x)) None) as [z [ns|e']]; [|discriminate]. cbn [snd].
        destruct (convert_elements ns h) as [h0 els0]. inversion EA. auto. }
      destruct X as (Xe & Xh). rewrite convert_elements_build in Xe, Xh. destruct (build_list_spec (flat_map tree_of_node (match snd (parse_loop word_char parse_string 5 (remove_ms_word_prefixes (remove_line_breaks x)) None) with Ok ns => ns | Raise _ => [] end)) h) as ((_ & _ & B) & _).
      rewrite <- Xe, <- Xh in B. intros l Hl. apply B. apply in_flat_map. eauto. }
  assert (HE : list_max (map height els) <= list_max (map node_height (found_nodes word_char parse_string x))).
  { unfold found_nodes, clean. unfold adapter_convert in EA. destruct (parse_loop word_char parse_string 5 (remove_ms_word_prefixes (remove_line_breaks x)) None) as [z [ns|e']]; [|discriminate]. cbn [snd].
    pose proof (all_converted_height ns h) as Q. destruct (convert_elements ns h) as [h0 els0]. inversion EA. subst. exact Q. }
  destruct (make_all_ok pi L els (2 * list_max (map height els) + 14) (1 + K) ltac:(lia) ltac:(lia) I h1 S2 H) as (ws & S3 & H3 & E3 & F3). destruct (make_all els h1) as [h2 cs]. cbn [fst snd] in *.
  destruct (run_all_ok pi L ws cs _ F3 h2 S3 H3) as (S4 & H4 & E4). unfold bind.
  assert (X : exists o : heap * res (list str), o = ModelXml.run_all cs h2) by eauto.
  destruct X as (o & Eo). rewrite <- Eo in *.
  destruct o as [h3 [ss|e]]; cbn [fst snd outcome ret] in *.
  - exists S4. penter. cbn [pred Nat.add] in *. prun. eapply evs_bnd; [exact E3|]. simple. rewrite concat_map_single, map_id. repeat apply evs_assoc.
    eapply evs_bnd; [exact E4|]. simple. prun. rewrite join_nothing. reflexivity.
  - exists S4. penter. cbn [pred Nat.add] in *. prun. eapply evs_bnd; [exact E3|]. simple. rewrite concat_map_single, map_id. repeat apply evs_assoc.
    repeat apply evs_bnd_raised. exact E4.
Qed.
Lemma one_line x : ~ In 10%N (clean x).
Proof. unfold clean. rewrite LemRecovery.clean_spec. apply LemRecovery.clean_one_line. Qed.
Theorem source_length x h S :
  exists S', evs (Nat.max (2 * list_max (map node_height (found_nodes word_char parse_string x)) + 16) (length (clean x) + 14))
    (fun n => C n (VMethod VNone "MathMLToLaTeX" "convert") [VStr x] []) S S' (outcome VStr (snd (mathml_to_latex word_char parse_string x h))).
Proof.
  set (H := list_max (map node_height (found_nodes word_char parse_string x))). set (K := Nat.max (2 * H + 14) (length (clean x) + 12)).
  pose proof (elements_ok word_char parse_string (length (objects S)) (length (dicts S)) (clean x) (with_text (length (objects S)) (length (dicts S)) (clean x) (with_adapter S)) K ltac:(lia)) as E.
  rewrite with_text_twice in E.
  destruct (source_bound x h S K) as (S' & R); [lia | apply E; [eapply with_text_is; apply last_nth | apply one_line]|].
  exists S'. eapply evs_more; [exact R | lia].
Qed.
Theorem source_ok x h S :
  exists S' K, evs K (fun n => C n (VMethod VNone "MathMLToLaTeX" "convert") [VStr x] []) S S' (outcome VStr (snd (mathml_to_latex word_char parse_string x h))).
Proof. destruct (source_length x h S) as (S' & H). eauto. Qed.
(** Texts that the parser accepts without repair *)
Theorem source_depth x d h S : parse_string (clean x) = Ok d ->
  exists S', evs (2 * document_height d + 16) (fun n => C n (VMethod VNone "MathMLToLaTeX" "convert") [VStr x] []) S S' (outcome VStr (snd (mathml_to_latex word_char parse_string x h))).
Proof.
  intros E. pose proof (all_found_height (lit "math") d) as Q.
  assert (P : parse_loop word_char parse_string 5 (clean x) None = (clean x, Ok (get_elements_by_tag_name d (lit "math")))) by (cbn [parse_loop]; rewrite E; reflexivity).
  destruct (source_bound x h S (2 * document_height d + 14)) as (S' & H).
  - unfold found_nodes. rewrite P. cbn [snd]. lia.
  - rewrite P. cbn [fst snd outcome]. eapply elements_first; [lia | | exact E]. eapply with_text_is with (x := []). apply last_nth.
  - exists S'. eapply evs_more; [exact H | lia].
Qed.
End Main.
