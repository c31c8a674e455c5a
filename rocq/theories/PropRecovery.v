(** C31, C33, C34, C42, C43: clean-up and recovery of the text. *)
From Coq Require Import String.
From Verif Require Import SpecExamples LemDoc2.
Local Open Scope string_scope.
Local Open Scope list_scope.

(** C31: for every text, error and meaning of [\w] that excludes the newline. *)
Theorem C31_only_deletes : forall word_char s e y, word_char 10%N = false -> fix_error word_char s e = Ok y ->
  subseq y s /\ (y = s \/ length y < length s).
Proof.
  exact (fun wc s e y W F =>
    let S := recovers_subseq s e y (proj1 (fix_recovers wc s (or_introl W) e y) F) in
    conj S (match subseq_length _ _ S with
            | conj L E => match le_lt_eq_dec _ _ L with left lt => or_intror lt | right same => or_introl (E same) end
            end)).
Qed.
Print Assumptions C31_only_deletes.
Example C31_example : fix_error no_word (lit "<a b><c d>") (EExpat 4 1 3) = Ok (lit "<a ><c d>").
Proof. vm_compute. reflexivity. Qed.

(** C33 *)
Theorem C33_line_breaks : forall word_char parse_string a c b h, c = 10%N \/ c = 13%N ->
  mathml_to_latex word_char parse_string (a ++ c :: b) h = mathml_to_latex word_char parse_string (a ++ b) h.
Proof.
  intros wc ps a c b h C. apply same_clean, line_breaks_ignored. destruct C; subst; reflexivity.
Qed.
Print Assumptions C33_line_breaks.
Example C33_example : clean (lit "<m" ++ [13%N; 10%N] ++ lit "i>" ++ [10%N]) = lit "<mi>".
Proof. vm_compute. reflexivity. Qed.

(** C34: "mml:" put between any pieces of a text (in which, line breaks aside, it does not occur). *)
Theorem C34_prefixes : forall word_char parse_string pieces h,
  ~ occurs (lit "mml:") (no_line_breaks (concat pieces)) ->
  mathml_to_latex word_char parse_string (join (lit "mml:") pieces) h
  = mathml_to_latex word_char parse_string (concat pieces) h.
Proof. exact (fun wc ps pieces h N => same_clean wc ps _ _ h (prefixes_ignored pieces N)). Qed.
Print Assumptions C34_prefixes.
Example C34_example : join (lit "mml:") [lit "<"; lit "math></"; lit "math>"] = lit "<mml:math></mml:math>"
  /\ clean (lit "<mml:math></mml:math>") = lit "<math></math>" /\ ~ occurs (lit "mml:") (lit "<math></math>").
Proof.
  repeat split. intros (a & b & E). assert (I : In 58%N (lit "<math></math>")).
  { rewrite E. apply in_app_iff. right. apply in_app_iff. left. vm_compute. auto. }
  vm_compute in I. intuition discriminate.
Qed.
(** One pass: a nested occurrence survives. *)
Theorem C34_one_pass : clean (lit "<mmml:ml:mi>") = lit "<mml:mi>".
Proof. vm_compute. reflexivity. Qed.
Print Assumptions C34_one_pass.

(** C42: an expat error other than invalid token, one line: delete after the last space before the last [>] through that [>]. *)
Theorem C42_generic : forall word_char code lineno offset a b tail, code <> 4 ->
  ~ In 10%N (a ++ b ++ tail) -> ~ In 32%N b -> ~ In 62%N tail -> In 60%N a ->
  fix_error word_char (a ++ lit " " ++ b ++ lit ">" ++ tail) (EExpat code lineno offset) = Ok (a ++ lit " " ++ tail).
Proof. exact generic_effect. Qed.
Print Assumptions C42_generic.
Theorem C42_unchanged : forall word_char code lineno offset s, code <> 4 -> ~ In 10%N s ->
  (forall a b tail, s = a ++ lit " " ++ b ++ lit ">" ++ tail -> In 60%N a -> False) ->
  fix_error word_char s (EExpat code lineno offset) = Ok s.
Proof. exact generic_no_effect. Qed.
Print Assumptions C42_unchanged.
(** Texts of several lines: each line by itself (for a [\w] that excludes the newline). *)
Theorem C42_lines : forall word_char code lineno offset s, code <> 4 -> word_char 10%N = false ->
  fix_error word_char s (EExpat code lineno offset) = Ok (join [10%N] (map cut_line (split_on 10 s))).
Proof. exact (fun wc code lineno offset s N W => proj2 (fix_recovers wc s (or_introl W) _ _) (recovers_generic s code lineno offset N)). Qed.
Print Assumptions C42_lines.
Example C42_example : fix_error no_word (lit "<math><mi x y=>a</mi></math>") (EExpat 3 1 9) = Ok (lit "<math><mi x ")
  /\ fix_error no_word (lit "<math>") (EExpat 3 1 9) = Ok (lit "<math>").
Proof. vm_compute. repeat split. Qed.

(** C43: an invalid token in a one-line text: with the word [w] around the position. *)
Theorem C43_attribute : forall word_char s offset w, ~ In 10%N s -> word_at s offset w -> strike w s <> s ->
  fix_error word_char s (EExpat 4 1 offset) = Ok (strike w s).
Proof. exact attribute_effect. Qed.
Print Assumptions C43_attribute.
Theorem C43_then_generic : forall word_char s offset w, ~ In 10%N s -> word_at s offset w -> strike w s = s ->
  fix_error word_char s (EExpat 4 1 offset) = Ok (cut_line s).
Proof. exact attribute_no_effect. Qed.
Print Assumptions C43_then_generic.
(** Every position in the text has one word, which contains no space. *)
Theorem C43_word : forall s offset, offset <= length s -> exists w, word_at s offset w /\ ~ In 32%N w
  /\ forall w', word_at s offset w' -> w' = w.
Proof. exact word_exists. Qed.
Print Assumptions C43_word.
(** What striking does, piece by piece. *)
Theorem C43_strike : forall w c s, w <> [] ->
  (forall rest, c :: s = w ++ lit "=" ++ rest -> quote_first rest = false -> strike w (c :: s) = strike w rest)
  /\ (forall rest, c :: s = w ++ rest -> quote_first rest = false ->
        (forall r, rest = lit "=" ++ r -> quote_first r = true) -> strike w (c :: s) = strike w rest)
  /\ ((forall rest, c :: s = w ++ rest -> quote_first rest = true) -> strike w (c :: s) = c :: strike w s)
  /\ strike w [] = [].
Proof. exact strike_cases. Qed.
Print Assumptions C43_strike.
Example C43_example : let s := lit "<mi checked name='x'>a</mi>" in word_at s 5 (lit "checked")
  /\ fix_error no_word s (EExpat 4 1 5) = Ok (lit "<mi  name='x'>a</mi>").
Proof.
  split; [|vm_compute; reflexivity]. exists (lit "<mi "), (lit "c"), (lit "hecked"), (lit " name='x'>a</mi>").
  vm_compute. repeat split; try (intuition discriminate).
  - right. exists (lit "<mi"). reflexivity.
  - right. exists 32%N. eexists. split; [reflexivity|auto].
Qed.
