(** C20 - C22, C24, C36 - C39: layout elements, for all children. *)
From Coq Require Import String.
From Verif Require Import SpecExamples LemText.
Local Open Scope string_scope.
Local Open Scope list_scope.

(** C20: without an mtable below. *)
Theorem C20_separators : forall v ch a ss, converts ch ss ->
  ~ (exists c u, In c ch /\ occurs_in u c /\ t_name u = lit "mtable") ->
  latex_of (T (lit "mfenced") v ch a) =
  Ok (lit "\left" ++ (if truthy (attr a "open") then attr a "open" else lit "(")
      ++ with_gaps (separator (attr a "separators")) ss
      ++ lit "\right" ++ (if truthy (attr a "close") then attr a "close" else lit ")")).
Proof. exact fenced_no_table. Qed.
Print Assumptions C20_separators.
(** What the gaps are: the i-th separator, the last one repeating, a comma if there is none. *)
Theorem C20_gaps : forall seps,
  (seps = [] -> forall i, separator seps i = lit ",")
  /\ (forall i c, nth_error seps i = Some c -> separator seps i = [c])
  /\ (forall init c i, seps = init ++ [c] -> length init <= i -> separator seps i = [c]).
Proof. exact separator_cases. Qed.
Print Assumptions C20_gaps.
Theorem C20_alternating : forall gap s t ss,
  with_gaps gap [] = [] /\ with_gaps gap [s] = s
  /\ with_gaps gap (s :: t :: ss) = s ++ gap 0 ++ with_gaps (fun i => gap (S i)) (t :: ss).
Proof. exact (fun gap s t ss => conj eq_refl (conj (with_gaps_one gap s) (with_gaps_cons gap s t ss))). Qed.
Print Assumptions C20_alternating.
Example C20_example :
  converts [mi "a"; mi "b"; mi "c"; mi "d"] [lit "a"; lit "b"; lit "c"; lit "d"]
  /\ latex_of (ela "mfenced" [("open", "["); ("close", ""); ("separators", ";|")] [mi "a"; mi "b"; mi "c"; mi "d"])
     = Ok (lit "\left[a;b|c|d\right)")
  /\ latex_of (el "mfenced" [mi "a"; mi "b"; mi "c"]) = Ok (lit "\left(a,b,c\right)").
Proof. split; [repeat constructor|]; vm_compute; repeat split. Qed.

(** C21: with an mtable somewhere below. *)
Theorem C21_own_environment : forall op cl e v ch a ss, converts ch ss ->
  (exists c u, In c ch /\ occurs_in u c /\ t_name u = lit "mtable") ->
  In (op, cl, e) [("(", ")", "pmatrix"); ("[", "]", "bmatrix"); ("{", "}", "Bmatrix"); ("|", "|", "vmatrix"); ("||", "||", "Vmatrix")] ->
  attr a "open" = lit op -> attr a "close" = lit cl ->
  latex_of (T (lit "mfenced") v ch a)
  = Ok (lit "\begin{" ++ lit e ++ lit "}" ++ nl ++ concat ss ++ nl ++ lit "\end{" ++ lit e ++ lit "}").
Proof. exact fenced_env. Qed.
Print Assumptions C21_own_environment.
Theorem C21_equal_fences : forall v ch a ss, converts ch ss ->
  (exists c u, In c ch /\ occurs_in u c /\ t_name u = lit "mtable") ->
  attr a "open" = attr a "close" -> attr a "open" <> lit "|" -> attr a "open" <> lit "||" ->
  latex_of (T (lit "mfenced") v ch a) = Ok (lit "\begin{bmatrix}" ++ nl ++ concat ss ++ nl ++ lit "\end{bmatrix}").
Proof. exact fenced_same. Qed.
Print Assumptions C21_equal_fences.
Theorem C21_other_fences : forall v ch a ss, converts ch ss ->
  (exists c u, In c ch /\ occurs_in u c /\ t_name u = lit "mtable") ->
  attr a "open" <> attr a "close" ->
  (forall op cl e, In (op, cl, e) env_pairs -> attr a "open" <> lit op \/ attr a "close" <> lit cl) ->
  latex_of (T (lit "mfenced") v ch a)
  = Ok (lit "\left" ++ attr a "open" ++ lit "\begin{matrix}" ++ nl ++ concat ss ++ nl ++ lit "\end{matrix}"
        ++ lit "\right" ++ attr a "close").
Proof. exact fenced_other. Qed.
Print Assumptions C21_other_fences.
Example C21_example :
  let deep := el "mrow" [el "mstyle" [inner_tab]] in
  let body := nl ++ lit "x \\" ++ nl ++ lit "1y" ++ nl in
  (exists c u, In c [deep; mi "y"] /\ occurs_in u c /\ t_name u = lit "mtable")
  /\ latex_of (ela "mfenced" [("open", "("); ("close", ")")] [deep; mi "y"])
     = Ok (lit "\begin{pmatrix}" ++ body ++ lit "\end{pmatrix}")
  /\ latex_of (el "mfenced" [deep; mi "y"]) = Ok (lit "\begin{bmatrix}" ++ body ++ lit "\end{bmatrix}")
  /\ latex_of (ela "mfenced" [("open", "{")] [deep; mi "y"])
     = Ok (lit "\left{\begin{matrix}" ++ body ++ lit "\end{matrix}\right").
Proof.
  split; [|vm_compute; repeat split].
  exists (el "mrow" [el "mstyle" [inner_tab]]), inner_tab. split; [cbn; auto|]. split; [|reflexivity].
  eapply occurs_deep; [left; reflexivity|]. eapply occurs_deep; [left; reflexivity|]. constructor.
Qed.

(** C22: rows of a table, cells of a row.  Inside a table the rows are converted as in a table of their own. *)
Theorem C22_rows : forall v rows a ss,
  Forall2 (fun row s => latex_of (T (lit "mtable") [] [row] []) = Ok s) rows ss -> attr a "innerTable" = [] ->
  latex_of (T (lit "mtable") v rows a) = Ok (with_gaps (fun _ => lit " \\" ++ nl) ss).
Proof. exact mtable_rows. Qed.
Print Assumptions C22_rows.
Theorem C22_cells : forall v cells a ss, converts cells ss ->
  latex_of (T (lit "mtr") v cells a) = Ok (with_gaps (fun _ => lit " & ") ss).
Proof. exact mtr_layout. Qed.
Print Assumptions C22_cells.
(** A row without tables below is converted the same alone and in a table of its own. *)
Theorem C22_plain_rows : forall t, has_table t = false ->
  latex_of (T (lit "mtable") [] [t] []) = latex_of t.
Proof. exact row_plain. Qed.
Print Assumptions C22_plain_rows.
(** n texts have n - 1 separators: counting a mark that the texts do not contain. *)
Theorem C22_count : forall sep mark ss, (forall s, In s ss -> ~ In mark s) ->
  count_occ N.eq_dec (with_gaps (fun _ => sep) ss) mark = (length ss - 1) * count_occ N.eq_dec sep mark.
Proof. exact gaps_count. Qed.
Print Assumptions C22_count.
Example C22_example : let r x y z := el "mtr" [el "mtd" [mi x]; el "mtd" [mi y]; el "mtd" [mi z]] in
  latex_of (el "mtable" [r "a" "b" "c"; r "d" "e" "f"; r "g" "h" "i"])
  = Ok (lit "a & b & c \\" ++ nl ++ lit "d & e & f \\" ++ nl ++ lit "g & h & i").
Proof. vm_compute. reflexivity. Qed.

(** C24 *)
Theorem C24_msup : forall v b x a sb sx, latex_of b = Ok sb -> latex_of x = Ok sx ->
  latex_of (T (lit "msup") v [b; x] a) = Ok (base_latex b sb ++ lit "^{" ++ sx ++ lit "}").
Proof. exact msup_layout. Qed.
Print Assumptions C24_msup.
Theorem C24_msub : forall v b x a sb sx, latex_of b = Ok sb -> latex_of x = Ok sx ->
  latex_of (T (lit "msub") v [b; x] a) = Ok (base_latex b sb ++ lit "_{" ++ sx ++ lit "}").
Proof. exact msub_layout. Qed.
Print Assumptions C24_msub.
Theorem C24_msubsup : forall v b x y a sb sx sy, latex_of b = Ok sb -> latex_of x = Ok sx -> latex_of y = Ok sy ->
  latex_of (T (lit "msubsup") v [b; x; y] a) = Ok (base_latex b sb ++ lit "_{" ++ sx ++ lit "}^{" ++ sy ++ lit "}").
Proof. exact msubsup_layout'. Qed.
Print Assumptions C24_msubsup.
Theorem C24_base : forall b s,
  (2 <= length (t_children b) /\ 2 <= length s /\ base_latex b s = lit "\left(" ++ s ++ lit "\right)")
  \/ ((length (t_children b) < 2 \/ length s < 2) /\ base_latex b s = s).
Proof. exact base_latex_cases. Qed.
Print Assumptions C24_base.
Theorem C24_munderover : forall v b x y a sb sx sy, latex_of b = Ok sb -> latex_of x = Ok sx -> latex_of y = Ok sy ->
  latex_of (T (lit "munderover") v [b; x; y] a) = Ok (sb ++ lit "_{" ++ sx ++ lit "}^{" ++ sy ++ lit "}").
Proof. exact munderover_layout'. Qed.
Print Assumptions C24_munderover.
Example C24_example :
  latex_of (el "msup" [el "mrow" [mi "x"; mo "+"; mi "y"]; mn "2"]) = Ok (lit "\left(x + y\right)^{2}")
  /\ latex_of (el "msup" [mi "abc"; mn "2"]) = Ok (lit "abc^{2}").
Proof. vm_compute. split; reflexivity. Qed.

(** C36 *)
Theorem C36_known : forall name before after v ch a ss, converts ch ss ->
  In (name, (before, after)) notations -> dget a (lit "notation") = Some (lit name) ->
  latex_of (T (lit "menclose") v ch a) = Ok (lit before ++ with_gaps (fun _ => lit " ") ss ++ lit after).
Proof. exact menclose_known. Qed.
Print Assumptions C36_known.
Theorem C36_other : forall v ch a ss, converts ch ss ->
  (forall n, dget a (lit "notation") = Some n -> ~ In n (map (fun e => lit (fst e)) notations)) ->
  latex_of (T (lit "menclose") v ch a)
  = Ok (lit "\overline{\left.\right)" ++ with_gaps (fun _ => lit " ") ss ++ lit "}").
Proof. exact menclose_other. Qed.
Print Assumptions C36_other.
(** The list of templates the statement refers to. *)
Example C36_notations : notations = [
  ("actuarial", ("\overline{\left.", "\right|}")); ("radical", ("\sqrt{", "}"));
  ("box", ("\boxed{", "}")); ("roundedbox", ("\boxed{", "}")); ("circle", ("\boxed{", "}"));
  ("left", ("\left|", "")); ("right", ("", "\right|")); ("top", ("\overline{", "}"));
  ("bottom", ("\underline{", "}")); ("updiagonalstrike", ("\cancel{", "}"));
  ("downdiagonalstrike", ("\bcancel{", "}")); ("updiagonalarrow", ("\cancelto{}{", "}"));
  ("verticalstrike", ("\hcancel{", "}")); ("horizontalstrike", ("\hcancel{", "}"));
  ("madruwb", ("\underline{", "\right|}")); ("phasorangle", ("{\angle \underline{", "}}")) ].
Proof. reflexivity. Qed.
Example C36_example :
  latex_of (ela "menclose" [("notation", "phasorangle")] [mi "x"; mi "y"]) = Ok (lit "{\angle \underline{x y}}")
  /\ latex_of (ela "menclose" [("notation", "box top")] [mi "x"]) = Ok (lit "\overline{\left.\right)x}")
  /\ ~ In (lit "box top") (map (fun e => lit (fst e)) notations).
Proof. vm_compute. repeat split. intro H. repeat (destruct H as [H|H]; [discriminate|]). destruct H. Qed.

(** C37 *)
Theorem C37_toggle : forall v ch a ss, converts ch ss ->
  attr a "actiontype" = [] \/ attr a "actiontype" = lit "toggle" ->
  latex_of (T (lit "maction") v ch a) = Ok (with_gaps (fun _ => lit " \Longrightarrow ") ss).
Proof. exact maction_toggle. Qed.
Print Assumptions C37_toggle.
Theorem C37_first_child : forall v t others a, attr a "actiontype" <> [] -> attr a "actiontype" <> lit "toggle" ->
  latex_of (T (lit "maction") v (t :: others) a) = latex_of t.
Proof. exact maction_first. Qed.
Print Assumptions C37_first_child.
Example C37_example :
  latex_of (el "maction" [mi "a"; mi "b"]) = Ok (lit "a \Longrightarrow b")
  /\ latex_of (ela "maction" [("actiontype", "tooltip")] [mi "a"; el "mfrac" []]) = Ok (lit "a").
Proof. vm_compute. split; reflexivity. Qed.

(** C38 *)
Theorem C38_accent : forall tag v x y a sx sy, In tag ["munder"; "mover"] -> latex_of x = Ok sx -> latex_of y = Ok sy ->
  In sy (map lit ["\hat"; "\bar"; "\underbrace"; "\overbrace"]) ->
  latex_of (T (lit tag) v [x; y] a) = Ok (sy ++ lit "{" ++ sx ++ lit "}").
Proof. exact accent_layout. Qed.
Print Assumptions C38_accent.
Theorem C38_set : forall tag cmd v x y a sx sy, In (tag, cmd) [("munder", "\underset"); ("mover", "\overset")] ->
  latex_of x = Ok sx -> latex_of y = Ok sy ->
  ~ In sy (map lit ["\hat"; "\bar"; "\underbrace"; "\overbrace"]) ->
  latex_of (T (lit tag) v [x; y] a) = Ok (lit cmd ++ lit "{" ++ sy ++ lit "}{" ++ sx ++ lit "}").
Proof. exact set_layout. Qed.
Print Assumptions C38_set.
Example C38_example :
  latex_of (el "mover" [mi "x"; T (lit "mo") [94%N] [] []]) = Ok (lit "\hat{x}")
  /\ latex_of (el "munder" [mi "x"; mi "y"]) = Ok (lit "\underset{y}{x}").
Proof. vm_compute. split; reflexivity. Qed.

(** C39 *)
Theorem C39_multiscripts : forall v ch a sb pre post, 3 <= length ch ->
  child_latex ch 0 sb -> script_pair ch (prescripts ch) "\" pre -> script_pair ch (postscripts ch) "" post ->
  latex_of (T (lit "mmultiscripts") v ch a)
  = Ok (pre ++ (if existsb is_space sb then lit "\left(" ++ sb ++ lit "\right)" else sb) ++ post).
Proof. exact multiscripts_layout. Qed.
Print Assumptions C39_multiscripts.
(** Which children are the scripts. *)
Theorem C39_positions : forall ch,
  (prescripts ch = Some (2, 3) <-> is_mprescripts ch 1 = true /\ 4 <= length ch)
  /\ (prescripts ch = Some (4, 5) <-> ~ (is_mprescripts ch 1 = true /\ 4 <= length ch) /\ is_mprescripts ch 3 = true /\ 6 <= length ch)
  /\ (forall p, prescripts ch = Some p -> p = (2, 3) \/ p = (4, 5))
  /\ (postscripts ch = if is_mprescripts ch 1 then None else Some (1, 2)).
Proof. exact script_positions. Qed.
Print Assumptions C39_positions.
(** Everything else is ignored. *)
Theorem C39_ignored : forall v v' ch ch' a a', length ch = length ch' ->
  (forall i, is_mprescripts ch i = is_mprescripts ch' i) ->
  (forall i, i = 0 \/ (exists j, prescripts ch = Some (i, j) \/ prescripts ch = Some (j, i)
                        \/ postscripts ch = Some (i, j) \/ postscripts ch = Some (j, i)) ->
             nth_error ch i = nth_error ch' i) ->
  latex_of (T (lit "mmultiscripts") v ch a) = latex_of (T (lit "mmultiscripts") v' ch' a').
Proof. exact multiscripts_ignored. Qed.
Print Assumptions C39_ignored.
Example C39_example :
  latex_of (el "mmultiscripts" [el "mrow" [mi "x"; mi "y"]; mi "a"; mi "b"; el "mprescripts" []; mi "c"; mi "d"; el "mfrac" []])
  = Ok (lit "\_{c}^{d}\left(x y\right)_{a}^{b}")
  /\ latex_of (el "mmultiscripts" [mi "x"; el "mprescripts" []; mi "c"; mi "d"]) = Ok (lit "\_{c}^{d}x").
Proof. vm_compute. split; reflexivity. Qed.
