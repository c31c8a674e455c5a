(** A document is at most half as high as its text is long. *)
From Coq Require Import String.
From Verif Require Export ModelExpat LemPyHeight.
Local Open Scope string_scope.
Local Open Scope list_scope.

Local Notation top l := (list_max (map node_height l)).
Lemma top_cons n l : top (n :: l) = Nat.max (node_height n) (top l).
Proof. reflexivity. Qed.
Lemma top_rev l : top (rev l) = top l.
Proof.
  induction l as [|n l IH]; [reflexivity|]. cbn [rev]. rewrite map_app, list_max_app, IH, !top_cons. change (top []) with 0. lia.
Qed.
(** The height of the document if nothing more came *)
Fixpoint tall (st : list frame) : nat :=
  match st with
  | [] => 0
  | (_, ch) :: st' => Nat.max (S (length st') + top ch) (tall st')
  end.
Definition so_far (s : state) : nat := Nat.max (top (s_doc s)) (tall (s_stack s)).
Lemma length_tall st : length st <= tall st.
Proof. destruct st as [|[? ?] st]; cbn [tall length]; lia. Qed.
Lemma add_node_tall s n : so_far (add_node s n) <= Nat.max (so_far s) (length (s_stack s) + node_height n).
Proof.
  unfold so_far, add_node. destruct (s_stack s) as [|[[nm l] ch] st]; cbn [s_doc s_stack tall length]; rewrite ?top_cons; lia.
Qed.
Lemma add_char_tall s c : so_far (add_char s c) = so_far s.
Proof.
  unfold so_far, add_char. destruct (s_stack s) as [|[[nm l] [|[] ch]] st] eqn:E; rewrite ?E; cbn [s_doc s_stack tall length]; rewrite ?top_cons; cbn [node_height map list_max fold_right]; lia.
Qed.
(** Characters of a start tag that have been read *)
Definition begun (m : scan) : nat :=
  match m with
  | Lt _ => 1
  | Name _ _ | Attrs _ | AfterValue _ | AttrName _ _ _ | AttrEq _ _ | AttrQuote _ _ | AttrValue _ _ _ _ | AttrRef _ _ _ _ _ _ | Slash _ => 2
  | _ => 0
  end.
Definition used (s : state) : nat := 2 * so_far s + begun (s_scan s).
Lemma used_goto s m : used (with_scan s m) = 2 * so_far s + begun m.
Proof. reflexivity. Qed.
Lemma scan_add_node s n : s_scan (add_node s n) = s_scan s.
Proof. unfold add_node. destruct (s_stack s) as [|[[nm l] ch] st]; reflexivity. Qed.
Lemma scan_add_char s c : s_scan (add_char s c) = s_scan s.
Proof. unfold add_char. destruct (s_stack s) as [|[[nm l] [|[] ch]] st]; reflexivity. Qed.
Lemma used_char s m c : used (add_char (with_scan s m) c) = 2 * so_far s + begun m.
Proof. unfold used. rewrite add_char_tall, scan_add_char. reflexivity. Qed.
Lemma used_low s m n : node_height n = 0 -> used (add_node (with_scan s m) n) <= 2 * so_far s + begun m.
Proof.
  intros H. unfold used. rewrite scan_add_node. pose proof (add_node_tall (with_scan s m) n) as Q. rewrite H in Q. cbn [s_stack with_scan] in Q.
  pose proof (length_tall (s_stack s)) as L. change (so_far (with_scan s m)) with (so_far s) in Q. unfold so_far in *. cbn [s_scan with_scan]. lia.
Qed.
Lemma used_tag s g b s' : finish_tag s g b = Go s' -> used s' <= 2 * so_far s + 2.
Proof.
  unfold finish_tag. destruct (_ || _); [discriminate|]. destruct (g_bad g) as [[? ?]|]; [discriminate|]. destruct (existsb _ _); [discriminate|].
  pose proof (length_tall (s_stack s)) as L. destruct b; intros [= <-].
  - unfold used. rewrite scan_add_node. match goal with |- context [add_node ?a ?b] => pose proof (add_node_tall a b) as Q end. cbn [node_height map s_stack] in Q. change (list_max []) with 0 in Q. unfold so_far in *. cbn [s_stack s_doc begun s_scan] in *. lia.
  - unfold used, so_far. cbn [s_doc s_stack s_scan tall begun]. change (top []) with 0. lia.
Qed.
Lemma used_close s p n s' : close_tag s p n = Go s' -> used s' <= 2 * so_far s.
Proof.
  unfold close_tag. destruct (s_stack s) as [|[[nm l] ch] st] eqn:E; [discriminate|]. destruct (str_eqb nm n); [|discriminate]. intros [= <-].
  unfold used. rewrite scan_add_node. match goal with |- context [add_node ?a ?b] => pose proof (add_node_tall a b) as Q end. cbn [node_height] in Q. fold node_height in Q. rewrite top_rev in Q. unfold so_far in *. rewrite E.
  cbn [s_stack s_doc begun s_scan tall] in *. lia.
Qed.
Lemma used_pi s p t d s' : finish_pi s p t d = Go s' -> used s' <= 2 * so_far s.
Proof.
  unfold finish_pi. destruct (str_eqb _ _); [discriminate|]. intros [= <-]. pose proof (used_low s (Between 0) (DPI t d) eq_refl) as Q. cbn [begun] in Q. lia.
Qed.
Lemma used_step lenient pos s c s' : step lenient pos s c = Go s' -> used s' <= S (used s).
Proof.
  destruct s as [doc st seen m]. pose (s := State doc st seen m). fold s. intros H. change (used s) with (2 * so_far s + begun m).
  destruct m; unfold step, loose_start, loose_step in H; cbn [s_scan s] in H; fold s in H; cbv zeta in H.
  all: repeat match type of H with
    | (match ?x with _ => _ end) = _ => destruct x
    | Bad _ _ = _ => discriminate
    | Out = _ => discriminate
    end.
  all: try discriminate.
  all: unfold goto in H; try (injection H as <-); rewrite ?used_goto, ?used_char; cbn [begun]; try lia.
  all: try (apply used_tag in H; lia); try (apply used_close in H; lia); try (apply used_pi in H; lia).
  all: match goal with |- context [add_node (with_scan ?a ?b) ?n] => pose proof (used_low a b n eq_refl) as Q end; cbn [begun] in *; lia.
Qed.
Lemma run_height lenient x : forall pos s d, run lenient pos s x = Read d -> 2 * document_height d <= used s + length x.
Proof.
  induction x as [|c x IH]; intros pos s d; cbn [run].
  - unfold finish. destruct (s_scan s); try discriminate. destruct (s_stack s) as [|] eqn:E; [|discriminate]. destruct (s_seen s); [|discriminate]. intros [= <-].
    unfold document_height, used, so_far. rewrite top_rev, E. cbn [tall length]. lia.
  - destruct (step lenient pos s c) as [s'| |] eqn:E; try discriminate. intros H. apply IH in H. apply used_step in E. cbn [length]. lia.
Qed.

(** ** What follows the declarations is no longer than the text *)
Lemma skip_white_length x : length (skip_white x) <= length x.
Proof. induction x as [|c x IH]; cbn; [lia|]. destruct (is_white c); cbn; lia. Qed.
Lemma skip_name_length x : length (skip_name x) <= length x.
Proof. induction x as [|c x IH]; cbn; [lia|]. destruct (name_char c); cbn; lia. Qed.
Lemma some_white_length x y : some_white x = Some y -> length y <= length x.
Proof. destruct x as [|c x]; cbn; [discriminate|]. destruct (is_white c); [|discriminate]. intros [= <-]. pose proof (skip_white_length x). lia. Qed.
Lemma some_name_length x y : some_name x = Some y -> length y <= length x.
Proof. destruct x as [|c x]; cbn; [discriminate|]. destruct (name_start c); [|discriminate]. intros [= <-]. pose proof (skip_name_length x). lia. Qed.
Lemma word_length w : forall x y, word w x = Some y -> length y <= length x.
Proof.
  induction w as [|c w IH]; intros [|d x] y; cbn; try discriminate; try (intros [= <-]; cbn; lia).
  destruct (c =? d)%N; [|discriminate]. intros H. apply IH in H. lia.
Qed.
Lemma until_length q ok : forall x v y, until q ok x = Some (v, y) -> length y <= length x.
Proof.
  induction x as [|c x IH]; intros v y; cbn; [discriminate|]. destruct (c =? q)%N; [intros [= _ <-]; lia|].
  destruct (ok c); [|discriminate]. destruct (until q ok x) as [[v' r]|]; [|discriminate]. intros [= _ <-]. specialize (IH _ _ eq_refl). lia.
Qed.
Lemma quoted_length ok x v y : quoted_text ok x = Some (v, y) -> length y <= length x.
Proof. destruct x as [|c x]; cbn; [discriminate|]. destruct (quoted c); [|discriminate]. intros H. apply until_length in H. lia. Qed.
Lemma setting_length n x v y : setting n x = Some (v, y) -> length y <= length x.
Proof.
  unfold setting. intros H. destruct (some_white x) as [x1|] eqn:E1; [|discriminate]. cbn [then_] in H. destruct (word n x1) as [x2|] eqn:E2; [|discriminate]. cbn [then_] in H.
  destruct (word (lit "=") (skip_white x2)) as [x3|] eqn:E3; [|discriminate]. cbn [then_] in H.
  apply some_white_length in E1. apply word_length in E2. apply word_length in E3. apply quoted_length in H.
  pose proof (skip_white_length x2). pose proof (skip_white_length x3). lia.
Qed.
Lemma declaration_length x sa y : xml_declaration x = Some (sa, y) -> length y <= length x.
Proof.
  unfold xml_declaration. intros H. destruct (setting (lit "version") x) as [[v x1]|] eqn:E1; [|discriminate]. cbn [then_ snd] in H. apply setting_length in E1.
  match type of H with then_ ?o _ = _ => destruct o as [x2|] eqn:E2; [|discriminate] end. cbn [then_] in H.
  assert (L2 : length x2 <= length x1).
  { destruct (setting (lit "encoding") x1) as [[e z]|] eqn:E; [|injection E2 as <-; lia]. apply setting_length in E.
    match type of E2 with (if ?b then _ else _) = _ => destruct b end; [injection E2 as <-; lia | discriminate]. }
  match type of H with then_ ?o _ = _ => destruct o as [[b x3]|] eqn:E3; [|discriminate] end. cbn [then_ fst snd] in H.
  assert (L3 : length x3 <= length x2).
  { destruct (setting (lit "standalone") x2) as [[e z]|] eqn:E; [|injection E3 as _ <-; lia]. apply setting_length in E.
    destruct (str_eqb e (lit "yes")); [injection E3 as _ <-; lia|]. destruct (str_eqb e (lit "no")); [injection E3 as _ <-; lia | discriminate]. }
  destruct (word (lit "?>") (skip_white x3)) as [x4|] eqn:E4; [|discriminate]. cbn [then_] in H. injection H as _ <-. apply word_length in E4.
  pose proof (skip_white_length x3). lia.
Qed.
Lemma doctype_length x e y : doctype x = Some (e, y) -> length y <= length x.
Proof.
  unfold doctype. intros H. destruct (some_white x) as [x1|] eqn:E1; [|discriminate]. cbn [then_] in H. destruct (some_name x1) as [x2|] eqn:E2; [|discriminate]. cbn [then_] in H.
  apply some_white_length in E1. apply some_name_length in E2.
  match type of H with then_ ?o _ = _ => destruct o as [[b x3]|] eqn:E3; [|discriminate] end. cbn [then_ fst snd] in H.
  assert (L3 : length x3 <= length x2).
  { destruct (some_white x2) as [z|] eqn:E; [|injection E3 as _ <-; lia]. apply some_white_length in E.
    destruct (word (lit "SYSTEM") z) as [z1|] eqn:W.
    - apply word_length in W. destruct (some_white z1) as [z2|] eqn:F2; [|discriminate]. apply some_white_length in F2. cbn [then_] in E3.
      destruct (quoted_text xml_char z2) as [[v z3]|] eqn:F3; [|discriminate]. apply quoted_length in F3. cbn [then_ snd] in E3. injection E3 as _ <-. lia.
    - destruct (word (lit "PUBLIC") z) as [z1|] eqn:W1; [|injection E3 as _ <-; lia].
      apply word_length in W1. destruct (some_white z1) as [z2|] eqn:F2; [|discriminate]. apply some_white_length in F2. cbn [then_] in E3.
      destruct (quoted_text public_char z2) as [[v z3]|] eqn:F3; [|discriminate]. apply quoted_length in F3. cbn [then_ snd] in E3.
      destruct (some_white z3) as [z4|] eqn:F4; [|discriminate]. apply some_white_length in F4. cbn [then_] in E3.
      destruct (quoted_text xml_char z4) as [[v' z5]|] eqn:F5; [|discriminate]. apply quoted_length in F5. cbn [then_ snd] in E3. injection E3 as _ <-. lia. }
  destruct (word (lit ">") (skip_white x3)) as [x4|] eqn:E4; [|discriminate]. cbn [then_] in H. injection H as _ <-. apply word_length in E4.
  pose proof (skip_white_length x3). lia.
Qed.
Lemma blanked_length x rest : length rest <= length x -> length (blanked x rest) = length x.
Proof. intros H. unfold blanked. rewrite app_length, map_length, firstn_length. lia. Qed.
Lemma find_length x : forall pos s y, find_doctype pos s x = Some y -> length y <= length x.
Proof.
  induction x as [|c x IH]; intros pos s y; cbn [find_doctype]; [discriminate|].
  match goal with |- (if ?b then _ else _) = _ -> _ => destruct b end; [intros [= <-]; lia|].
  destruct (step false pos s c) as [s'| |]; try discriminate. intros H. apply IH in H. cbn. lia.
Qed.
Lemma body_height sa x d : read_body sa x = Read d -> 2 * document_height d <= length x.
Proof.
  unfold read_body. destruct (find_doctype 0 start x) as [y|] eqn:F.
  - apply find_length in F. destruct (word (lit "<!DOCTYPE") y) as [z|] eqn:W; cbn [then_]; [|discriminate]. apply word_length in W.
    destruct (doctype z) as [[e r]|] eqn:D; [|discriminate]. apply doctype_length in D. intros H. apply run_height in H.
    rewrite app_length, blanked_length, firstn_length in H by lia. cbn in H. lia.
  - intros H. apply run_height in H. cbn in H. exact H.
Qed.
Lemma text_height x d : read_text x = Read d -> 2 * document_height d <= length x.
Proof.
  unfold read_text. destruct (word (lit "<?xml") x) as [[|c y]|] eqn:W; try apply body_height.
  destruct (is_white c); [|apply body_height]. destruct (xml_declaration (c :: y)) as [[sa r]|] eqn:X; [|discriminate]. intros H. apply body_height in H.
  apply word_length in W. apply declaration_length in X. rewrite blanked_length in H by lia. exact H.
Qed.
Theorem parsed_height x d : parse_text x = Ok d -> 2 * document_height d <= length x.
Proof.
  assert (P : forall k x, parse_from k x = Ok d -> 2 * document_height d <= length x).
  { clear. intros k x. unfold parse_from. destruct (existsb surrogate x); [discriminate|]. destruct (_ || _); [discriminate|].
    destruct (read_text x) as [d'|code pos|] eqn:E; [|destruct (line_column 1 k (firstn pos x)); discriminate|discriminate]. intros [= ->]. apply text_height. exact E. }
  destruct x as [|c x]; cbn [parse_text]; [apply P|]. destruct (c =? 65279)%N; [|apply P]. intros H. apply P in H. cbn [length]. lia.
Qed.
