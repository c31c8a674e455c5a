(** C19, C25 - C29: tokens. *)
From Coq Require Import String.
From Verif Require Import SpecExamples LemText.
Local Open Scope string_scope.
Local Open Scope list_scope.

(** C19: only the words of the text matter. *)
Theorem C19_words : forall tag v v' ch a, In tag ["mi"; "mo"; "mn"] -> words v = words v' ->
  latex_of (T (lit tag) v ch a) = latex_of (T (lit tag) v' ch a).
Proof. exact token_words. Qed.
Print Assumptions C19_words.
Example C19_example : words (lit "  a   b ") = words ([9%N] ++ lit "a" ++ nl ++ lit "b")
  /\ latex_of (T (lit "mi") ([9%N] ++ lit "a" ++ nl ++ lit "b") [] []) = Ok (lit "a b").
Proof. vm_compute. split; reflexivity. Qed.

(** C25: first the symbol of the normalised text, then the commands of the variant around it. *)
Theorem C25_mi : forall v ch a,
  latex_of (T (lit "mi") v ch a)
  = Ok (in_commands (variant_lookup mi_variants [] (attr a "mathvariant"))
          (match first_entry [all_math_symbols_by_char; all_math_symbols_by_glyph; math_number_by_glyph] (squeeze v) with
           | Some s => s
           | None => accent_or_font (squeeze v)
           end)).
Proof. exact mi_latex_of. Qed.
Print Assumptions C25_mi.
(** An unknown or absent variant adds nothing. *)
Theorem C25_unknown_variant : forall v ch a,
  ~ In (attr a "mathvariant") (map (fun e => lit (fst e)) mi_variants) ->
  latex_of (T (lit "mi") v ch a) = latex_of (T (lit "mi") v ch []).
Proof. exact mi_unknown. Qed.
Print Assumptions C25_unknown_variant.
Example C25_example :
  map latex_of [T (lit "mi") [945%N] [] [(lit "mathvariant", lit "bold-fraktur")]; mi "&#x3B1;"; mi "foo"; T (lit "mi") [233%N] [] []]
  = [Ok (lit "\mathbf{\mathfrak{\alpha}}"); Ok (lit "\alpha"); Ok (lit "foo"); Ok (lit "\acute{e}")]
  /\ ~ In (lit "normal") (map (fun e => lit (fst e)) mi_variants).
Proof. vm_compute. split; [reflexivity|]. intro H. repeat (destruct H as [H|H]; [discriminate|]). destruct H. Qed.

(** C26: HashUTF8ToLtXConverter.convert. *)
Theorem C26_idempotent : forall w, utf8_convert (utf8_convert w) = utf8_convert w.
Proof. exact utf8_idem. Qed.
Print Assumptions C26_idempotent.
Theorem C26_conservative : forall w, utf8_convert w <> w ->
  exists c, w = [c] /\ (dget vowels_with_accents w <> None \/ dget special_font_chars w <> None).
Proof. exact utf8_keeps. Qed.
Print Assumptions C26_conservative.
Theorem C26_nonempty : forall w, w <> [] -> utf8_convert w <> [].
Proof. exact utf8_nonempty. Qed.
Print Assumptions C26_nonempty.
(** The listed characters are changed. *)
Theorem C26_listed : forall w, dget vowels_with_accents w <> None \/ dget special_font_chars w <> None ->
  utf8_convert w <> w.
Proof. exact utf8_changes. Qed.
Print Assumptions C26_listed.
Example C26_example : utf8_convert [233%N] = lit "\acute{e}" /\ utf8_convert (lit "abc") = lit "abc".
Proof. vm_compute. split; reflexivity. Qed.

(** C27 *)
Theorem C27_numbers : forall v ch a, dget math_number_by_glyph (squeeze v) = None ->
  latex_of (T (lit "mn") v ch a) = Ok (squeeze v).
Proof. exact mn_other. Qed.
Print Assumptions C27_numbers.
Theorem C27_ascii : forall v ch a, (forall c, In c v -> (c < 128)%N) ->
  latex_of (T (lit "mn") v ch a) = Ok (squeeze v).
Proof. exact (fun v ch a H => eq_trans (mn_latex_of v ch a) (f_equal Ok (mn_ascii v H))). Qed.
Print Assumptions C27_ascii.
Theorem C27_glyphs : forall v s ch a, dget math_number_by_glyph (squeeze v) = Some s ->
  latex_of (T (lit "mn") v ch a) = Ok s.
Proof. exact mn_listed. Qed.
Print Assumptions C27_glyphs.
Example C27_example : latex_of (mn " 1 000,5_{a} ") = Ok (lit "1 000,5_{a}")
  /\ latex_of (T (lit "mn") [8322%N] [] []) = Ok (lit "_{2}").
Proof. vm_compute. split; reflexivity. Qed.

(** C28 *)
Theorem C28_operators_never_vanish : forall v ch a, words v <> [] ->
  exists c s, latex_of (T (lit "mo") v ch a) = Ok (c :: s).
Proof. exact mo_nonempty. Qed.
Print Assumptions C28_operators_never_vanish.
Theorem C28_empty_entries : forall v ch a,
  dget all_math_operators_by_char (squeeze v) = Some [] \/ dget all_math_operators_by_glyph (squeeze v) = Some [] ->
  latex_of (T (lit "mo") v ch a) = Ok (squeeze v).
Proof. exact mo_empty_entry. Qed.
Print Assumptions C28_empty_entries.
(** Invisible times. *)
Example C28_example : dget all_math_operators_by_glyph (squeeze [32%N; 8290%N]) = Some []
  /\ words [32%N; 8290%N] <> [] /\ latex_of (T (lit "mo") [32%N; 8290%N] [] []) = Ok [8290%N].
Proof. vm_compute. split; [reflexivity|split; [discriminate|reflexivity]]. Qed.

(** C29: the pieces ... *)
Theorem C29_mtext : forall v ch a,
  latex_of (T (lit "mtext") v ch a)
  = Ok (concat (map (fun run : bool * str =>
          if fst run then in_commands (variant_lookup mtext_variants ["\text"] (attr a "mathvariant")) (snd run)
          else in_commands [] (symbol mi_tables (squeeze (snd run))))
        (text_runs v))).
Proof. exact mtext_latex_of. Qed.
Print Assumptions C29_mtext.
(** ... make up the text, are nonempty runs of plain characters or single other ones, and the runs are maximal. *)
Theorem C29_runs : forall v,
  concat (map snd (text_runs v)) = v
  /\ (forall b w, In (b, w) (text_runs v) ->
        if b then w <> [] /\ Forall (fun c => plain_text_char c = true) w else exists c, w = [c] /\ plain_text_char c = false)
  /\ (forall l1 w1 w2 l2, text_runs v <> l1 ++ (true, w1) :: (true, w2) :: l2).
Proof. exact (fun v => conj (runs_concat v) (conj (runs_kinds v) (runs_maximal v))). Qed.
Print Assumptions C29_runs.
Example C29_example :
  latex_of (T (lit "mtext") (lit "for all " ++ [8704%N] ++ lit "x>0") [] [(lit "mathvariant", lit "bold-italic")])
  = Ok (lit "\textbf{\textit{for all }}\forall\textbf{\textit{x}}>\textbf{\textit{0}}").
Proof. vm_compute. reflexivity. Qed.
