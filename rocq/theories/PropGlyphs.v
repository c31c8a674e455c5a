(** C48 - C52: single characters, by their Unicode code points. *)
From Coq Require Import String.
From Verif Require Import SpecExamples LemDoc2 LemGlyphs.
Local Open Scope string_scope.
Local Open Scope list_scope.

(** C48: exactly the 29 white-space characters of Unicode (and the separators U+001C - U+001F) count as white space. *)
Theorem C48_white : forall tag c ch, In tag ["mi"; "mo"; "mn"] ->
  (latex_of (T (lit tag) [c] ch []) = Ok [] <-> In c white_codes).
Proof. exact white_alone. Qed.
Print Assumptions C48_white.
Theorem C48_around : forall tag p v q ch a, In tag ["mi"; "mo"; "mn"] -> white p -> white q ->
  latex_of (T (lit tag) (p ++ v ++ q) ch a) = latex_of (T (lit tag) v ch a).
Proof. exact around. Qed.
Print Assumptions C48_around.
(** The element object of a document element with text [raw] holds [raw] without the white space at both ends. *)
Theorem C48_strip : forall tag l raw h,
  exists h' e p q, convert_element (DElem tag l [DText raw]) h = (h', [e])
  /\ raw = p ++ e_value e ++ q /\ white p /\ white q
  /\ (forall c s, e_value e = c :: s -> ~ In c white_codes) /\ (forall c s, e_value e = s ++ [c] -> ~ In c white_codes).
Proof.
  intros tag l raw h. destruct (element_text tag l [DText raw] h) as (h' & e & E & _ & V).
  destruct (strip_cut raw) as (p & q & H). exists h', e, p, q. cbn in V. rewrite V. split; [exact E|exact H].
Qed.
Print Assumptions C48_strip.
(** C41 again, node by node: without an element child, the element object holds the data of the first child node, whatever its
    kind, without the white space at both ends; the other nodes do not matter.  With an element child it holds nothing. *)
Theorem C41_first_node : forall tag l first rest raw h,
  In first [DText raw; DCData raw; DComment raw] \/ (exists target, first = DPI target raw) ->
  (forall t a ch, ~ In (DElem t a ch) rest) ->
  exists h' e p q, convert_element (DElem tag l (first :: rest)) h = (h', [e])
  /\ raw = p ++ e_value e ++ q /\ white p /\ white q
  /\ (forall c s, e_value e = c :: s -> ~ In c white_codes) /\ (forall c s, e_value e = s ++ [c] -> ~ In c white_codes).
Proof.
  intros tag l first rest raw h F R. destruct (element_text tag l (first :: rest) h) as (h' & e & E & _ & V).
  destruct (strip_cut raw) as (p & q & H). exists h', e, p, q. split; [exact E|].
  assert (X : existsb is_elem_node rest = false).
  { destruct (existsb is_elem_node rest) eqn:X; auto. apply existsb_exists in X as (n & I & Y).
    destruct n; try discriminate. exfalso. eapply R; eauto. }
  assert (Y : e_value e = strip raw).
  { destruct F as [F|[t ->]]; [cbn [In] in F; destruct F as [<-|[<-|[<-|[]]]]|]; cbn [existsb is_elem_node orb node_value] in V; rewrite X in V; exact V. }
  rewrite Y. exact H.
Qed.
Print Assumptions C41_first_node.
Theorem C41_element_child : forall tag l children t a ch h, In (DElem t a ch) children ->
  exists h' e, convert_element (DElem tag l children) h = (h', [e]) /\ e_value e = [].
Proof.
  intros tag l children t a ch h I. destruct (element_text tag l children h) as (h' & e & E & _ & V). exists h', e. split; [exact E|].
  destruct children as [|n rest]; [exact V|]. assert (X : existsb is_elem_node (n :: rest) = true) by (apply existsb_exists; eauto).
  rewrite X in V. exact V.
Qed.
Print Assumptions C41_element_child.
Example C41_nodes_example : exists h e, convert_element (DElem (lit "mi") [] [DPI (lit "t") (lit " d "); DText (lit "x")]) [] = (h, [e]) /\ e_value e = lit "d".
Proof. eexists _, _. vm_compute. repeat split. Qed.
(** C01 again, with the code points of white space. *)
Theorem C01_white_codes : forall word_char parse_string xml h s, snd (mathml_to_latex word_char parse_string xml h) = Ok s ->
  (forall c s', s = c :: s' -> ~ In c white_codes) /\ (forall c s', s = s' ++ [c] -> ~ In c white_codes)
  /\ (forall c, In c s -> In c white_codes -> c = 32%N) /\ (forall a b, s <> a ++ [32%N; 32%N] ++ b).
Proof.
  intros wc ps xml h s E. apply output_canonical in E as (A & B & C & D). repeat split; auto.
  - intros c s' E. apply not_white. eauto.
  - intros c s' E. apply not_white. eauto.
  - intros c I W. apply C; auto. apply white_is_space; auto.
Qed.
Print Assumptions C01_white_codes.
Example C48_example : white [160%N; 8232%N; 10%N] /\ ~ In 8203%N white_codes
  /\ latex_of (T (lit "mi") [160%N; 97%N; 8203%N; 12288%N] [] []) = Ok [97%N; 8203%N].
Proof.
  split; [apply white_check; reflexivity|]. split; [|vm_compute; reflexivity].
  vm_compute. intro I. repeat (destruct I as [I|I]; [discriminate|]). destruct I.
Qed.

(** C49: capital letters of the mathematical fonts. *)
Theorem C49_capitals : forall tag cmd first other i v ch a, In tag ["mi"; "mo"] -> In (cmd, first, other) fonts -> i < 26 ->
  shows v (capital first other i) -> attr a "mathvariant" = [] ->
  latex_of (T (lit tag) v ch a) = Ok (lit cmd ++ lit "{" ++ [(65 + N.of_nat i)%N] ++ lit "}").
Proof. exact capitals. Qed.
Print Assumptions C49_capitals.
(** Italic small letters in mi are the plain letters (Unicode has no italic h there). *)
Theorem C49_italic : forall i v ch a, i < 26 -> i <> 7 -> shows v (119886 + N.of_nat i)%N -> attr a "mathvariant" = [] ->
  latex_of (T (lit "mi") v ch a) = Ok [(97 + N.of_nat i)%N].
Proof. exact italic. Qed.
Print Assumptions C49_italic.
(** ... but the italic h, U+210E, is not converted. *)
Theorem C49_italic_h_refuted : exists s, latex_of (T (lit "mi") [8462%N] [] []) = Ok s /\ s <> lit "h" /\ s = [8462%N].
Proof. eexists. split; [vm_compute; reflexivity|]. split; [discriminate|reflexivity]. Qed.
Print Assumptions C49_italic_h_refuted.
(** Bold Greek capitals are listed as typewriter letters, mostly other ones: bold Zeta as F. *)
Theorem C49_bold_greek_refuted : exists s, latex_of (T (lit "mi") [120493%N] [] []) = Ok s /\ s = lit "\mathtt{F}".
Proof. eexists. split; [vm_compute; reflexivity|reflexivity]. Qed.
Print Assumptions C49_bold_greek_refuted.
Example C49_example : (exists other, In ("\mathbb", 120120%N, other) fonts /\ shows [10%N; 120139%N] (capital 120120 other 19)
    /\ shows [10%N; 8477%N] (capital 120120 other 17))
  /\ latex_of (T (lit "mo") [10%N; 8477%N] [] []) = Ok (lit "\mathbb{R}")
  /\ latex_of (T (lit "mi") [119987%N; 32%N] [] []) = Ok (lit "\mathcal{X}").
Proof.
  split; [|vm_compute; split; reflexivity]. eexists. split; [do 4 right; left; reflexivity|].
  split; exists [10%N], []; (split; [reflexivity|split; apply white_check; reflexivity]).
Qed.

(** C50: number characters. *)
Theorem C50_subscripts : forall tag i v ch a, In tag ["mi"; "mo"; "mn"] -> i < 10 -> shows v (subscript i) -> attr a "mathvariant" = [] ->
  latex_of (T (lit tag) v ch a) = Ok (lit "_{" ++ [digit i] ++ lit "}").
Proof. intros tag i v ch a I L S A. exact (all_three_latex tag _ _ v ch a (below _ _ subscripts_sweep i L) I S A). Qed.
Print Assumptions C50_subscripts.
Theorem C50_superscripts : forall tag i v ch a, In tag ["mi"; "mn"] -> i < 10 -> shows v (superscript i) -> attr a "mathvariant" = [] ->
  latex_of (T (lit tag) v ch a) = Ok (lit "^{" ++ [digit i] ++ lit "}").
Proof.
  intros tag i v ch a I L S A. pose proof (below _ _ superscripts_sweep i L) as H. cbv beta zeta in H.
  apply andb_prop in H as [H _]. apply andb_prop in H as [H1 H2].
  destruct I as [<-|[<-|[]]]; [eapply mi_sym|eapply mn_num]; eauto.
Qed.
Print Assumptions C50_superscripts.
(** In mo too, except that 1, 2 and 3 fall to the line. *)
Theorem C50_superscript_operators : forall i v ch a, i < 10 -> shows v (superscript i) ->
  latex_of (T (lit "mo") v ch a) = Ok (if existsb (Nat.eqb i) [1; 2; 3] then [digit i] else lit "^{" ++ [digit i] ++ lit "}").
Proof.
  intros i v ch a L S. pose proof (below _ _ superscripts_sweep i L) as H. cbv beta zeta in H.
  apply andb_prop in H as [_ H]. eapply mo_sym; eauto.
Qed.
Print Assumptions C50_superscript_operators.
Theorem C50_circled : forall tag i v ch a, In tag ["mi"; "mo"; "mn"] -> i <= 50 -> shows v (circled i) -> attr a "mathvariant" = [] ->
  latex_of (T (lit tag) v ch a) = Ok (lit "\textcircled{" ++ numeral2 i ++ lit "}").
Proof. intros tag i v ch a I L S A. exact (all_three_latex tag _ _ v ch a (below _ _ circled_sweep i ltac:(lia)) I S A). Qed.
Print Assumptions C50_circled.
Theorem C50_fractions : forall tag c x y v ch a, In tag ["mi"; "mo"; "mn"] -> In (c, x, y) fractions -> shows v c -> attr a "mathvariant" = [] ->
  latex_of (T (lit tag) v ch a) = Ok (lit "\dfrac{" ++ numeral2 x ++ lit "}{" ++ numeral2 y ++ lit "}").
Proof.
  intros tag c x y v ch a I F S A. pose proof (proj1 (forallb_forall _ _) fractions_sweep _ F) as H. cbv beta iota in H.
  exact (all_three_latex tag _ _ v ch a H I S A).
Qed.
Print Assumptions C50_fractions.
Example C50_example : map latex_of [T (lit "mn") [8530%N] [] []; T (lit "mi") [12977%N] [] []; T (lit "mn") [178%N] [] []; T (lit "mo") [178%N] [] []]
  = [Ok (lit "\dfrac{1}{10}"); Ok (lit "\textcircled{36}"); Ok (lit "^{2}"); Ok (lit "2")]
  /\ circled 36 = 12977%N /\ In (8530%N, 1, 10) fractions.
Proof. vm_compute. repeat split. auto 30. Qed.

(** C51: Greek letters and accents. *)
Theorem C51_greek : forall c s v ch a, In (c, s) greek -> shows v c -> attr a "mathvariant" = [] ->
  latex_of (T (lit "mi") v ch a) = Ok (lit s).
Proof.
  intros c s v ch a G S A. pose proof (proj1 (forallb_forall _ _) greek_sweep _ G) as H. cbv beta in H.
  apply andb_prop in H as [H _]. eapply mi_sym; eauto.
Qed.
Print Assumptions C51_greek.
(** As operators epsilon, xi, Lambda and Xi are not known and stay as they are. *)
Theorem C51_greek_operators : forall c s v ch a, In (c, s) greek -> shows v c ->
  latex_of (T (lit "mo") v ch a) = Ok (if existsb (N.eqb c) [949; 958; 923; 926]%N then [c] else lit s).
Proof.
  intros c s v ch a G S. pose proof (proj1 (forallb_forall _ _) greek_sweep _ G) as H. cbv beta in H.
  apply andb_prop in H as [_ H]. eapply mo_sym; eauto.
Qed.
Print Assumptions C51_greek_operators.
Theorem C51_accents : forall tag cmd l c letter v ch a, In tag ["mi"; "mo"] -> In (cmd, l) accented -> In (c, letter) l ->
  shows v c -> attr a "mathvariant" = [] ->
  latex_of (T (lit tag) v ch a) = Ok (lit cmd ++ lit "{" ++ lit letter ++ lit "}").
Proof.
  intros tag cmd l c letter v ch a I F G S A. pose proof (proj1 (forallb_forall _ _) accents_sweep _ F) as H. cbv beta in H.
  pose proof (proj1 (forallb_forall _ _) H _ G) as K. cbv beta zeta in K. apply andb_prop in K as [K1 K2].
  destruct I as [<-|[<-|[]]]; [eapply mi_sym|eapply mo_sym]; eauto.
Qed.
Print Assumptions C51_accents.
(** Not every accented letter: e with inverted breve becomes an i, z with dot a z with hat. *)
Theorem C51_accents_refuted : latex_of (T (lit "mi") [519%N] [] []) = Ok (lit "\hat{i}") /\ latex_of (T (lit "mi") [380%N] [] []) = Ok (lit "\hat{z}").
Proof. vm_compute. split; reflexivity. Qed.
Print Assumptions C51_accents_refuted.
Example C51_example : latex_of (T (lit "mi") [923%N] [] []) = Ok (lit "\Lambda") /\ latex_of (T (lit "mo") [923%N] [] []) = Ok [923%N]
  /\ latex_of (T (lit "mo") [32%N; 8491%N] [] []) = Ok (lit "\mathring{A}").
Proof. vm_compute. repeat split. Qed.

(** C52: one ASCII character. *)
Theorem C52_mi : forall c v ch a, (c < 128)%N -> ~ In c white_codes -> shows v c -> attr a "mathvariant" = [] ->
  (forall s, In (c, s) mi_ascii -> latex_of (T (lit "mi") v ch a) = Ok (lit s))
  /\ (~ In c (map fst mi_ascii) -> latex_of (T (lit "mi") v ch a) = Ok [c]).
Proof.
  intros c v ch a L W S A. pose proof (below _ _ ascii_sweep (N.to_nat c) ltac:(lia)) as H. cbv beta zeta in H. rewrite N2Nat.id in H.
  rewrite (proj1 (not_white c) W) in H. cbn [orb] in H. apply andb_prop in H as [H _]. rewrite (mi_sym v c ch a _ H S A).
  exact (code_lookup_spec mi_ascii c ltac:(repeat constructor; vm_compute; intuition discriminate)).
Qed.
Print Assumptions C52_mi.
Theorem C52_mo : forall c v ch a, (c < 128)%N -> ~ In c white_codes -> shows v c ->
  (forall s, In (c, s) mo_ascii -> latex_of (T (lit "mo") v ch a) = Ok (lit s))
  /\ (~ In c (map fst mo_ascii) -> latex_of (T (lit "mo") v ch a) = Ok [c]).
Proof.
  intros c v ch a L W S. pose proof (below _ _ ascii_sweep (N.to_nat c) ltac:(lia)) as H. cbv beta zeta in H. rewrite N2Nat.id in H.
  rewrite (proj1 (not_white c) W) in H. cbn [orb] in H. apply andb_prop in H as [_ H]. rewrite (mo_sym v c ch a _ H S).
  exact (code_lookup_spec mo_ascii c ltac:(repeat constructor; vm_compute; intuition discriminate)).
Qed.
Print Assumptions C52_mo.
Example C52_example : map latex_of [mi "%"; mi "<"; mi "{"; mo "*"; mo "+"; mo "("]
  = [Ok (lit "\%"); Ok (lit "<"); Ok (lit "{"); Ok (lit "\star"); Ok (lit "+"); Ok (lit "\left(\right.")].
Proof. vm_compute. reflexivity. Qed.
