(** C74: comparisons made by the regular expressions of the clean-up and of the recovery. *)
From Coq Require Import String.
From Verif Require Import SpecExamples SpecCount LemCount.
From Verif Require ModelExpat LemCount2.
Local Open Scope string_scope.
Local Open Scope list_scope.

(** Counting changes no outcome. *)
Theorem C74_same : forall word_char parse_string xml,
  snd (c_reading word_char parse_string xml)
  = parse_loop word_char parse_string 5 (remove_ms_word_prefixes (remove_line_breaks xml)) None.
Proof. exact c_reading_same. Qed.
Print Assumptions C74_same.

(** The two substitutions made on every text: at most eight comparisons for a character. *)
Theorem C74_clean_up : forall xml,
  fst (c_re_sub line_break_pattern (fun _ => []) xml) <= 8 * S (length xml)
  /\ fst (c_re_sub (RLit (lit "mml:")) (fun _ => []) xml) <= 8 * S (length xml).
Proof. intro xml. destruct (c_clean_le xml) as (A & _ & B). split; assumption. Qed.
Print Assumptions C74_clean_up.

(** Whatever the text and whatever the parser says, a call makes at most a cubic number of comparisons.  The one fact asked of [\w] is
    that the equals sign is none. *)
Theorem C74_cubic : forall word_char parse_string xml, word_char 61%N = false ->
  fst (c_reading word_char parse_string xml) <= 686 * (S (length xml) * S (length xml) * S (length xml)).
Proof. exact c_reading_le. Qed.
Print Assumptions C74_cubic.

(** The repair of an attribute without a value (code 4): at most quadratic. *)
Theorem C74_missing_value : forall code line column xml,
  fst (c_fix_missing_attribute_value code line column xml) <= 2 * (2 * length xml + 3) * S (length xml).
Proof. exact c_fix_value_le. Qed.
Print Assumptions C74_missing_value.

(** A text the parser accepts at once is read in a linear number of comparisons. *)
Theorem C74_accepted : forall word_char parse_string xml dom,
  parse_string (remove_ms_word_prefixes (remove_line_breaks xml)) = Ok dom ->
  fst (c_reading word_char parse_string xml) <= 16 * S (length xml).
Proof. exact reading_accepted. Qed.
Print Assumptions C74_accepted.

(** And the third power is reached: a comment that is never closed, with [k] less-than signs. *)
Theorem C74_slow : forall word_char parse_string k code line column,
  parse_string (open_comment k) = Raise (EExpat code line column) -> code <> 4 ->
  10 * (k * k * k) <= 3 * fst (c_reading word_char parse_string (open_comment k)) + 10 * k
  /\ snd (c_reading word_char parse_string (open_comment k)) = (open_comment k, Raise (EExpat code line column)).
Proof. exact reading_cost. Qed.
Print Assumptions C74_slow.

(** The parser of ModelExpat.v is one that does: unclosed token (5), line 1, column 0. *)
Theorem C74_open_comment : forall word_char k,
  10 * (k * k * k) <= 3 * fst (c_reading word_char ModelExpat.parse_text (open_comment k)) + 10 * k
  /\ snd (c_reading word_char ModelExpat.parse_text (open_comment k)) = (open_comment k, Raise (EExpat 5 1 0)).
Proof.
  intros wc k. apply reading_cost; [apply LemCount2.parse_open_comment|discriminate].
Qed.
Print Assumptions C74_open_comment.

(** So no quadratic bound holds, whatever its factor. *)
Theorem C74_quadratic_refuted : forall word_char factor, exists xml,
  factor * (S (length xml) * S (length xml)) < fst (c_reading word_char ModelExpat.parse_text xml).
Proof.
  intros wc f. exists (open_comment (8 + 16 * f)).
  destruct (C74_open_comment wc (8 + 16 * f)) as [A _]. revert A. generalize (fst (c_reading wc ModelExpat.parse_text (open_comment (8 + 16 * f)))).
  intros n A. assert (L : length (open_comment (8 + 16 * f)) = 4 + 2 * (8 + 16 * f)) by (unfold open_comment; rewrite app_length, signs_length; reflexivity).
  rewrite L. set (k := 8 + 16 * f) in *. assert (K : 16 * f = k - 8) by (unfold k; lia).
  assert (8 <= k) by (unfold k; lia). clearbody k. nia.
Qed.
Print Assumptions C74_quadratic_refuted.

(** Counts of a few texts, with no character of [\w]. *)
Example C74_example_clean_up :
  List.map (fun x => fst (c_re_sub line_break_pattern (fun _ => []) x)) [lit ""; lit "<a b c>"; lit "<math><mi a= >x</mi></math>"] = [3; 24; 84].
Proof. vm_compute. reflexivity. Qed.
Example C74_example_search :
  List.map (fun k => fst (c_re_search (generic_missing_pattern no_word) (open_comment k))) [0; 1; 2; 4; 8; 16]
  = [12; 25; 52; 164; 732; 4140].
Proof. vm_compute. reflexivity. Qed.
Example C74_example_reading :
  List.map (fun k => fst (c_reading no_word ModelExpat.parse_text (open_comment k))) [0; 1; 2; 4; 8]
  = [80; 153; 296; 872; 3744].
Proof. vm_compute. reflexivity. Qed.
Example C74_example_accepted :
  fst (c_reading no_word ModelExpat.parse_text (lit "<math><mi>x</mi></math>")) = 100.
Proof. vm_compute. reflexivity. Qed.
Example C74_example_missing_value :
  fst (c_fix_missing_attribute_value 4 1 12 (lit "<math><mi a= >x</mi></math>")) = 62
  /\ snd (c_fix_missing_attribute_value 4 1 12 (lit "<math><mi a= >x</mi></math>")) = Ok (lit "<math><mi  >x</mi></math>").
Proof. vm_compute. split; reflexivity. Qed.
Example C74_example_repaired :
  fst (c_reading no_word ModelExpat.parse_text (lit "<math><mi a= >x</mi></math>")) = 1177.
Proof. vm_compute. reflexivity. Qed.
