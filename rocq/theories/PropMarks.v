(** C53, C54: which of # $ % & \\ the output holds. *)
From Coq Require Import String.
From Verif Require Import SpecExamples LemMarks.
Local Open Scope string_scope.
Local Open Scope list_scope.

(** C53: where the tokens of a tree give tidy LaTeX, each # $ % & \\ of the output is one of a token, of a row or of a table. *)
Theorem C53_marks : forall k t s, In k marks -> (forall u, visits t u -> tidy_element u) -> latex_of t = Ok s ->
  count k s = list_sum (map (own_marks k) (converted t)).
Proof. exact latex_marks. Qed.
Print Assumptions C53_marks.
Theorem C53_converted : forall t s u, latex_of t = Ok s -> (In u (converted t) <-> visits t u).
Proof. exact (fun t s u E => converted_visits t (proj1 (converts_iff t) (ex_intro _ s E)) u). Qed.
Print Assumptions C53_converted.
(** Any text may stand in mtext: # $ % & come out escaped, and a line break only for a right quotation mark. *)
Theorem C53_text : forall v ch a s, latex_of (T (lit "mtext") v ch a) = Ok s ->
  tidy s /\ (forall k, In k specials -> count k s = 0) /\ count double_backslash s = count_occ N.eq_dec v quote_mark.
Proof.
  intros v ch a s E. rewrite latex_node' in E by reflexivity. assert (X : s = mtext_latex v a) by (injection E; auto). subst s. split; [|split].
  - apply tidy_neat. apply (mtext_marked (Chr 35%N) v a). cbn. auto.
  - intros k K. apply special_mark in K as [K D]. destruct (mtext_marked k v a K) as [_ M]. rewrite M. unfold quotes.
    destruct (token_dec k double_backslash); [contradiction|reflexivity].
  - apply (mtext_marked double_backslash v a). cbn. auto 6.
Qed.
Print Assumptions C53_text.
(** Clean trees give no # $ % at all. *)
Theorem C53_clean : forall k t s, In k [Chr 35; Chr 36; Chr 37]%N -> clean_tree t -> latex_of t = Ok s -> ~ In k (tex_tokens s).
Proof.
  intros k t s K C E. apply (count_occ_not_In token_dec). apply (clean_specials k t s); auto.
  - cbn in *. tauto.
  - cbn in K. intuition (subst; discriminate).
Qed.
Print Assumptions C53_clean.
Theorem C53_clean_tidy : forall t s, clean_tree t -> latex_of t = Ok s -> (forall u, visits t u -> tidy_element u) /\ tidy s.
Proof.
  intros t s C E. assert (H : forall u, visits t u -> tidy_element u) by (intros u V; apply clean_tidy; auto).
  split; auto. apply (latex_tidy t s); auto.
Qed.
Print Assumptions C53_clean_tidy.
(** Documents. *)
Theorem C53_documents : forall word_char parse_string xml d h s k,
  read_as parse_string xml d -> (forall t, In t (math_trees d) -> clean_tree t) ->
  snd (mathml_to_latex word_char parse_string xml h) = Ok s -> In k [Chr 35; Chr 36; Chr 37]%N -> ~ In k (tex_tokens s).
Proof.
  intros wc ps xml d h s k R C E K. rewrite (convert_read_snd wc ps xml d h R) in E. apply (count_occ_not_In token_dec).
  apply (clean_document d s C E); [cbn in *; tauto|]. cbn in K. intuition (subst; discriminate).
Qed.
Print Assumptions C53_documents.
(** Otherwise they come out bare. *)
Theorem C53_bare_refuted : exists t s, t = el "math" [mn "5%"; mi "a#b"; mo "$x"] /\ s = lit "5% a#b $x" /\ latex_of t = Ok s
  /\ forall k, In k [Chr 35; Chr 36; Chr 37]%N -> In k (tex_tokens s).
Proof.
  exists (el "math" [mn "5%"; mi "a#b"; mo "$x"]), (lit "5% a#b $x"). split; [reflexivity|]. split; [reflexivity|].
  split; [vm_compute; reflexivity|]. intros k [<-|[<-|[<-|[]]]]; vm_compute; auto 12.
Qed.
Print Assumptions C53_bare_refuted.
(** A quotation mark breaks the line. *)
Theorem C53_quote_refuted : exists s, latex_of (T (lit "mi") [quote_mark] [] []) = Ok s /\ In double_backslash (tex_tokens s).
Proof. exists [92; 92; 34]%N. split; [vm_compute; reflexivity|]. vm_compute. auto. Qed.
Print Assumptions C53_quote_refuted.
Definition marked_tree : tree :=
  el "math" [leaf "mtext" "50% & #1 \ $"; mi "%"; mo "&"; el "mtable" [el "mtr" [mn "1"; mi "x"; mo "#"]; el "mtr" [mn "2"; el "mtable" [el "mtr" [mi "p"]; el "mtr" [mi "q"; mi "r"]]]]].
Example C53_example : clean_tree marked_tree /\ unquoted_tree marked_tree /\ exists s, latex_of marked_tree = Ok s
  /\ s = lit "\text{50}\%\text{ }\&\text{ }\#\text{1 }\backslash\text{ }\$ \% \& 1 & x & \# \\ 2 & \begin{matrix}p \\ q & r\end{matrix}"
  /\ map (fun k => count k s) marks = [0; 0; 0; 4; 2]
  /\ gaps_of "mtr" (converted marked_tree) = 4 /\ gaps_of "mtable" (converted marked_tree) = 2.
Proof.
  split; [apply clean_check; vm_compute; reflexivity|]. split; [apply unquoted_check; vm_compute; reflexivity|].
  exists (lit "\text{50}\%\text{ }\&\text{ }\#\text{1 }\backslash\text{ }\$ \% \& 1 & x & \# \\ 2 & \begin{matrix}p \\ q & r\end{matrix}").
  split; [vm_compute; reflexivity|]. split; [reflexivity|]. vm_compute. auto.
Qed.
(** Without the condition the count fails: a backslash of one token swallows the ampersand of the next. *)
Example C53_condition : let t := el "mfenced" [el "mtable" [el "mtr" [mn "\"]]; mn "&"] in
  exists s, latex_of t = Ok s /\ count ampersand s = 0 /\ expected_marks ampersand t = 1 /\ ~ tidy_element (mn "\").
Proof.
  cbv zeta. eexists. split; [vm_compute; reflexivity|]. split; [vm_compute; reflexivity|]. split; [vm_compute; reflexivity|]. intros [H _].
  destruct (H ltac:(vm_compute; auto) (lit "\")) as [U _]; [vm_compute; reflexivity|]. apply U. exists []. vm_compute. reflexivity.
Qed.
Example C53_text_example : exists s, latex_of (T (lit "mtext") (lit "a" ++ [quote_mark] ++ lit "#" ++ [quote_mark]) [] []) = Ok s
  /\ map (fun k => count k s) marks = [0; 0; 0; 0; 2].
Proof. eexists. split; vm_compute; reflexivity. Qed.

(** C54: clean trees have one & less than cells in each row, one \\ less than rows in each table. *)
Theorem C54_ampersands : forall t s, clean_tree t -> latex_of t = Ok s -> count ampersand s = gaps_of "mtr" (converted t).
Proof. exact clean_ampersands. Qed.
Print Assumptions C54_ampersands.
Theorem C54_breaks : forall t s, clean_tree t -> unquoted_tree t -> latex_of t = Ok s ->
  count double_backslash s = gaps_of "mtable" (converted t).
Proof. exact clean_breaks. Qed.
Print Assumptions C54_breaks.
Theorem C54_documents : forall word_char parse_string xml d h s,
  read_as parse_string xml d -> (forall t, In t (math_trees d) -> clean_tree t) ->
  snd (mathml_to_latex word_char parse_string xml h) = Ok s ->
  count ampersand s = gaps_of "mtr" (flat_map converted (math_trees d))
  /\ ((forall t, In t (math_trees d) -> unquoted_tree t) -> count double_backslash s = gaps_of "mtable" (flat_map converted (math_trees d))).
Proof. intros wc ps xml d h s R C E. rewrite (convert_read_snd wc ps xml d h R) in E. apply (clean_document d s C E). Qed.
Print Assumptions C54_documents.
(** A table of r rows with c cells each. *)
Theorem C54_grid : forall v a rows c s, (forall row, In row rows -> t_name row = lit "mtr" /\ length (t_children row) = c) ->
  (forall u, visits (T (lit "mtable") v rows a) u -> tidy_element u) -> latex_of (T (lit "mtable") v rows a) = Ok s ->
  let cells := concat (map t_children rows) in
  count ampersand s = length rows * (c - 1) + list_sum (map (expected_marks ampersand) cells)
  /\ count double_backslash s = (length rows - 1) + list_sum (map (expected_marks double_backslash) cells).
Proof. exact grid_marks. Qed.
Print Assumptions C54_grid.
Example C54_example : exists s, latex_of (el "mtable" [el "mtr" [mi "a"; mi "b"; mi "c"]; el "mtr" [mi "d"; mi "e"; mi "f"]]) = Ok s
  /\ count ampersand s = 2 * (3 - 1) + 0 /\ count double_backslash s = (2 - 1) + 0.
Proof. eexists. split; [vm_compute; reflexivity|]. split; vm_compute; reflexivity. Qed.
Example C54_grid_example : let t := el "mtable" [el "mtr" [mi "a"; el "mtable" [el "mtr" [mi "p"; mi "q"]]]; el "mtr" [mi "d"; mi "e"]] in
  (forall u, visits t u -> tidy_element u)
  /\ list_sum (map (expected_marks ampersand) (concat (map t_children (t_children t)))) = 1
  /\ exists s, latex_of t = Ok s /\ count ampersand s = 3 /\ count double_backslash s = 1.
Proof.
  cbv zeta. split; [|split; [vm_compute; reflexivity|eexists; split; [vm_compute; reflexivity|split; vm_compute; reflexivity]]].
  intros u V. apply clean_tidy. revert u V. apply clean_check. vm_compute. reflexivity.
Qed.
