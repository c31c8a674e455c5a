(** Consequences for documents: layout, attributes, texts, clean-up. *)
From Coq Require Import String.
From Verif Require Export LemDoc SpecLayout.
Local Open Scope string_scope.
Local Open Scope list_scope.

(** ** C01 *)
Lemma no_double_explicit s : no_double s -> forall a b, s <> a ++ [32%N; 32%N] ++ b.
Proof.
  induction s as [|c s IH]; intros D a b E; [destruct a; discriminate|].
  destruct a as [|x a].
  - cbn in E. inversion E; subst. cbn in D. destruct D as [D _]. apply D. auto.
  - inversion E; subst. apply (IH ltac:(cbn in D; destruct a; apply D) a b). auto.
Qed.
Lemma output_canonical wc ps xml h s : snd (mathml_to_latex wc ps xml h) = Ok s ->
  (forall c s', s = c :: s' -> is_space c = false)
  /\ (forall s' c, s = s' ++ [c] -> is_space c = false)
  /\ (forall c, In c s -> is_space c = true -> c = 32%N)
  /\ (forall a b, s <> a ++ [32%N; 32%N] ++ b).
Proof.
  intro H. destruct (read_or_rejected wc ps xml) as [(d & R)|(e & R)].
  - destruct (convert_read wc ps xml d h R) as (h' & E & _). rewrite E in H. cbn in H.
    apply document_latex_canonical in H as ((H1 & H2) & H3 & H4). repeat split; auto. apply no_double_explicit; auto.
  - rewrite (convert_rejected wc ps xml e h R) in H. discriminate.
Qed.

(** ** C30 *)
Lemma reaches_mono ps ps' x : (forall k y, k < 5 -> reaches ps k x y -> ps y = ps' y) ->
  forall k y, k <= 5 -> reaches ps k x y -> reaches ps' k x y.
Proof.
  intro H.
  assert (G : forall k x0 y, reaches ps k x0 y -> forall j, reaches ps j x x0 -> j + k <= 5 -> reaches ps' k x0 y).
  { induction 1 as [|k x0 e x' y P R M IH]; intros j J L; [constructor|].
    econstructor; [|exact R|].
    - rewrite <- (H j x0); auto. lia.
    - apply (IH (S j)); [|lia]. clear -J P R. induction J; econstructor; eauto. constructor. }
  intros k y L R. apply (G k x y R 0); [constructor|lia].
Qed.
Lemma outcome_agree wc ps ps' xml h :
  (forall k y, k < 5 -> reaches ps k (clean xml) y -> ps y = ps' y) ->
  snd (mathml_to_latex wc ps xml h) = snd (mathml_to_latex wc ps' xml h).
Proof.
  intro H. pose proof (reaches_mono ps ps' _ H) as M.
  destruct (read_or_rejected wc ps xml) as [(d & R)|(e & R)].
  - assert (R' : read_as ps' xml d).
    { destruct R as (k & y & K & R & P). exists k, y. split; auto. split; [apply M; auto; lia|]. rewrite <- (H k y); auto. }
    destruct (convert_read wc ps xml d h R) as (h1 & -> & _). destruct (convert_read wc ps' xml d h R') as (h2 & -> & _). auto.
  - assert (R' : rejected_with ps' xml e).
    { destruct R as [(y & R & P & F)|(k & y & e0 & K & R & P & F)].
      - left. exists y. split; [apply M; auto; lia|]. rewrite <- (H 4 y); auto.
      - right. exists k, y, e0. split; auto. split; [apply M; auto; lia|]. rewrite <- (H k y); auto. }
    rewrite (convert_rejected wc ps xml e h R), (convert_rejected wc ps' xml e h R'). auto.
Qed.
(** Same cleaned text, same outcome. *)
Lemma same_clean wc ps xml xml' h : clean xml = clean xml' -> mathml_to_latex wc ps xml h = mathml_to_latex wc ps xml' h.
Proof. intro E. unfold mathml_to_latex, adapter_convert. rewrite !clean_spec, E. reflexivity. Qed.
Lemma line_breaks_ignored a c b : line_break c = true -> clean (a ++ c :: b) = clean (a ++ b).
Proof.
  intro L. unfold clean, no_line_breaks. f_equal. rewrite !filter_app. cbn [filter]. rewrite L. reflexivity.
Qed.

(** ** C34 *)
Lemma mml_overlap p2 rest r : p2 <> [] -> p2 ++ lit "mml:" ++ rest = lit "mml:" ++ r -> exists q, p2 = lit "mml:" ++ q.
Proof.
  intros N E. destruct p2 as [|a [|b [|c [|d p2]]]]; try congruence; cbn in E; inversion E; subst; try discriminate.
  exists p2. reflexivity.
Qed.
Lemma without_piece p s : ~ occurs (lit "mml:") p -> (exists s', s = lit "mml:" ++ s') \/ s = [] ->
  without (lit "mml:") (p ++ s) = p ++ without (lit "mml:") s.
Proof.
  intros N S. unfold without. induction p as [|c p IH]; auto.
  assert (N' : ~ occurs (lit "mml:") p) by (intros (a & b & ->); apply N; exists (c :: a), b; auto).
  cbn [app deleting]. destruct (after (lit "mml:") (c :: p ++ s)) as [r|] eqn:E.
  - exfalso. apply after_some in E. destruct S as [[s' ->]| ->].
    + change (c :: p ++ lit "mml:" ++ s') with ((c :: p) ++ lit "mml:" ++ s') in E. apply mml_overlap in E as (q & E); [|discriminate].
      apply N. exists [], q. auto.
    + rewrite app_nil_r in E. apply N. exists [], r. auto.
  - f_equal. auto.
Qed.
Lemma without_id p : ~ occurs (lit "mml:") p -> without (lit "mml:") p = p.
Proof. intro N. rewrite <- (app_nil_r p) at 1. rewrite without_piece by auto. cbn. apply app_nil_r. Qed.
Lemma without_prefix s : without (lit "mml:") (lit "mml:" ++ s) = without (lit "mml:") s.
Proof. reflexivity. Qed.
Lemma without_join pieces : Forall (fun p => ~ occurs (lit "mml:") p) pieces ->
  without (lit "mml:") (join (lit "mml:") pieces) = concat pieces.
Proof.
  induction 1 as [|p pieces N F IH]; auto. destruct pieces as [|p2 pieces].
  - cbn [join concat]. rewrite app_nil_r. apply without_id; auto.
  - change (join (lit "mml:") (p :: p2 :: pieces)) with (p ++ lit "mml:" ++ join (lit "mml:") (p2 :: pieces)).
    rewrite without_piece by eauto. rewrite without_prefix, IH. reflexivity.
Qed.
Lemma no_line_breaks_join pieces :
  no_line_breaks (join (lit "mml:") pieces) = join (lit "mml:") (map no_line_breaks pieces).
Proof.
  induction pieces as [|p pieces IH]; auto. destruct pieces as [|p2 pieces]; auto.
  change (join (lit "mml:") (p :: p2 :: pieces)) with (p ++ lit "mml:" ++ join (lit "mml:") (p2 :: pieces)).
  unfold no_line_breaks in *. rewrite !filter_app, IH. reflexivity.
Qed.
Lemma no_line_breaks_concat pieces : no_line_breaks (concat pieces) = concat (map no_line_breaks pieces).
Proof. unfold no_line_breaks. induction pieces; cbn; auto. rewrite filter_app. f_equal; auto. Qed.
Lemma prefixes_ignored pieces : ~ occurs (lit "mml:") (no_line_breaks (concat pieces)) ->
  clean (join (lit "mml:") pieces) = clean (concat pieces).
Proof.
  intro N. unfold clean. rewrite (without_id (no_line_breaks (concat pieces))) by auto.
  rewrite no_line_breaks_join, no_line_breaks_concat in *. apply without_join.
  apply Forall_forall. intros p I (a & b & ->). apply N. apply in_split in I as (u & v & ->).
  rewrite concat_app. cbn [concat]. exists (concat u ++ a), (b ++ concat v). rewrite <- !app_assoc. reflexivity.
Qed.

(** ** C15, C35, C41 *)
Lemma bare_elem n : is_elem_node (bare n) = is_elem_node n.
Proof. destruct n; auto. cbn. destruct (existsb _ _); auto. Qed.
Lemma bare_list ch : Forall (fun n => tree_of_node (bare n) = tree_of_node n) ch ->
  flat_map tree_of_node (filter is_elem_node (map bare ch)) = flat_map tree_of_node ch.
Proof.
  induction 1 as [|n ch Hn F IH]; cbn [filter map flat_map]; auto. rewrite bare_elem, <- Hn.
  destruct (is_elem_node n) eqn:E; cbn [flat_map]; rewrite IH; auto. destruct n; try discriminate; auto.
Qed.
Lemma bare_node n : tree_of_node (bare n) = tree_of_node n.
Proof.
  induction n as [tag a ch IH|n H] using dnode_ind'; [|destruct n; try discriminate; auto].
  cbn [bare]. destruct (existsb is_elem_node ch) eqn:E; auto. cbn [tree_of_node]. f_equal. f_equal.
  - assert (X : existsb is_elem_node (filter is_elem_node (map bare ch)) = true).
    { apply existsb_exists in E as (m & I & E). apply existsb_exists. exists (bare m). rewrite bare_elem. split; auto.
      apply filter_In. rewrite bare_elem. split; auto. apply in_map; auto. }
    unfold text_of. destruct ch as [|n ch]; auto. rewrite E. destruct (filter _ _); auto. rewrite X. auto.
  - apply bare_list; auto.
Qed.
Lemma bare_doc_trees d : math_trees (bare_doc d) = math_trees d.
Proof.
  unfold math_trees, bare_doc. f_equal. f_equal. apply bare_list. apply Forall_forall. intros. apply bare_node.
Qed.
Lemma same_bare wc ps xml xml' d d' h : read_as ps xml d -> read_as ps xml' d' -> bare_doc d = bare_doc d' ->
  snd (mathml_to_latex wc ps xml h) = snd (mathml_to_latex wc ps xml' h).
Proof.
  intros R R' E. destruct (convert_read wc ps xml d h R) as (h1 & -> & _). destruct (convert_read wc ps xml' d' h R') as (h2 & -> & _).
  cbn [snd]. unfold document_latex. rewrite <- (bare_doc_trees d), E, bare_doc_trees. auto.
Qed.

Lemma distinct_id l : NoDup l -> distinct l = l.
Proof.
  induction 1 as [|x l N D IH]; auto. cbn. rewrite IH. f_equal. clear -N. induction l as [|y l IH]; auto. cbn.
  rewrite (proj2 (str_eqb_neq x y)) by (intro; subst; apply N; cbn; auto). cbn. f_equal. apply IH. intro; apply N; cbn; auto.
Qed.
Lemma last_value_other l k d : ~ In k (map fst l) -> last_value l k d = d.
Proof.
  revert d. induction l as [|[n v] l IH]; intros d N; auto. cbn [last_value].
  rewrite (proj2 (str_eqb_neq n k)) by (intro; subst; apply N; cbn; auto). apply IH. intro; apply N; cbn; auto.
Qed.
Lemma attributes_unique l : NoDup (map fst l) ->
  attributes_of l = map (fun nv => (fst nv, if str_eqb (snd nv) (fst nv) then [] else snd nv)) l.
Proof.
  intro N. unfold attributes_of. rewrite distinct_id by auto. rewrite map_map. apply map_ext_in. intros [n v] I. cbn [fst snd].
  assert (X : forall d, last_value l n d = v).
  { clear -N I. induction l as [|[m w] l IH]; [destruct I|]. intro d. cbn [last_value]. cbn in N. inversion N; subst.
    destruct I as [I|I].
    - inversion I; subst. rewrite str_eqb_refl. apply last_value_other; auto.
    - apply IH; auto. }
  rewrite X. reflexivity.
Qed.
Lemma element_attributes tag l ch h : exists h' e, convert_element (DElem tag l ch) h = (h', [e])
  /\ e_name e = tag /\ e_value e = text_of ch /\ hget h' (e_attributes e) = attributes_of l.
Proof.
  rewrite convert_element_build. cbn [tree_of_node]. rewrite build_list_one. eexists _, _. split; [reflexivity|].
  rewrite build_eq. cbn [fst snd e_name e_value e_attributes]. split; auto. split; auto.
  destruct (build_list_spec (flat_map tree_of_node ch) (h ++ [attributes_of l])) as [[[x ->] _] _].
  unfold hget. rewrite <- app_assoc, app_nth2, Nat.sub_diag by lia. reflexivity.
Qed.

(** ** C44 *)
Lemma adapter_reusable wc ps : forall xmls st h, one_adapter wc ps st xmls h = new_adapters wc ps xmls h.
Proof.
  induction xmls as [|x xmls IH]; intros st h; auto. cbn [one_adapter new_adapters].
  assert (E : adapter_convert wc ps st x h = adapter_convert wc ps adapter_new x h) by reflexivity.
  rewrite E. destruct (adapter_convert wc ps adapter_new x h) as [st1 hr]. rewrite IH. reflexivity.
Qed.

(** ** C09 *)
Lemma rseq_first {A} (l1 : list (res A)) e l2 ss : Forall2 (fun r s => r = Ok s) l1 ss -> rseq (l1 ++ Raise e :: l2) = Raise e.
Proof. induction 1 as [|r s l1 ss -> F IH]; cbn; auto. rewrite IH. auto. Qed.
Lemma Forall2_map_l {A B C} (f : A -> B) (P : B -> C -> Prop) l l' : Forall2 P (map f l) l' <-> Forall2 (fun x y => P (f x) y) l l'.
Proof.
  split.
  - revert l'. induction l as [|x l IH]; intros l' H; inversion H; subst; constructor; auto.
  - induction 1; cbn; constructor; auto.
Qed.
Lemma document_all d ss : Forall2 (fun t s => latex_of t = Ok s) (math_trees d) ss -> document_latex d = Ok (concat ss).
Proof.
  intro F. unfold document_latex. apply (Forall2_map_l latex_of (fun r s => r = Ok s)) in F. apply rseq_Forall2 in F.
  rewrite F. reflexivity.
Qed.
Lemma document_fails d l1 t l2 ss e : math_trees d = l1 ++ t :: l2 ->
  Forall2 (fun t s => latex_of t = Ok s) l1 ss -> latex_of t = Raise e -> document_latex d = Raise e.
Proof.
  intros E F R. unfold document_latex. rewrite E, map_app. cbn [map]. rewrite R.
  apply (Forall2_map_l latex_of (fun r s => r = Ok s)) in F. rewrite (rseq_first _ _ _ _ F). reflexivity.
Qed.
Lemma convert_read_snd wc ps xml d h : read_as ps xml d -> snd (mathml_to_latex wc ps xml h) = document_latex d.
Proof. intro R. destruct (convert_read wc ps xml d h R) as (h' & -> & _). auto. Qed.

(** ** C42, C43 *)
Lemma split_on_line s : ~ In 10%N s -> split_on 10 s = [s].
Proof.
  intro N. destruct (split_on_spec 10 s) as (l & rest & E & _ & [[-> ->]|(s' & -> & _)]); auto.
  exfalso. apply N, in_app_iff. cbn; auto.
Qed.
Lemma cut_one_line s : ~ In 10%N s -> cut s = cut_line s.
Proof. intro N. unfold cut. rewrite split_on_line by auto. reflexivity. Qed.
Lemma generic_effect wc code lineno offset a b tail : code <> 4 ->
  ~ In 10%N (a ++ b ++ tail) -> ~ In 32%N b -> ~ In 62%N tail -> In 60%N a ->
  fix_error wc (a ++ lit " " ++ b ++ lit ">" ++ tail) (EExpat code lineno offset) = Ok (a ++ lit " " ++ tail).
Proof.
  intros C N1 N2 N3 I. assert (L : ~ In 10%N (a ++ lit " " ++ b ++ lit ">" ++ tail)).
  { intro X. apply N1. change (lit " ") with [32%N] in X. change (lit ">") with [62%N] in X.
    rewrite !in_app_iff in *. cbn [In] in X. intuition discriminate. }
  apply (fix_recovers wc); auto.
  replace (a ++ lit " " ++ tail) with (cut (a ++ lit " " ++ b ++ lit ">" ++ tail)); [constructor; auto|].
  rewrite cut_one_line by auto. unfold cut_line.
  replace (split_last 62 (a ++ lit " " ++ b ++ lit ">" ++ tail)) with (Some (a ++ lit " " ++ b, tail)).
  2:{ symmetry. apply split_last_some. split; auto. rewrite <- !app_assoc. reflexivity. }
  replace (split_last 32 (a ++ lit " " ++ b)) with (Some (a, b)).
  2:{ symmetry. apply split_last_some. auto. }
  replace (existsb (N.eqb 60) a) with true; auto. symmetry. apply existsb_exists. exists 60%N. auto.
Qed.
Lemma generic_no_effect wc code lineno offset s : code <> 4 -> ~ In 10%N s ->
  (forall a b tail, s = a ++ lit " " ++ b ++ lit ">" ++ tail -> In 60%N a -> False) ->
  fix_error wc s (EExpat code lineno offset) = Ok s.
Proof.
  intros C N H. apply (fix_recovers wc); auto.
  replace s with (cut s) at 2; [constructor; auto|]. rewrite cut_one_line by auto. unfold cut_line.
  destruct (split_last 62 s) as [[before tail]|] eqn:E1; auto. destruct (split_last 32 before) as [[a b]|] eqn:E2; auto.
  destruct (existsb (N.eqb 60) a) eqn:E3; auto. exfalso. apply split_last_some in E1 as [-> _]. apply split_last_some in E2 as [-> _].
  apply existsb_exists in E3 as (x & I & E3). apply N.eqb_eq in E3. subst x.
  apply (H a b tail); auto. rewrite <- app_assoc. reflexivity.
Qed.
Lemma line_one s : ~ In 10%N s -> line_number s 1 = Some s.
Proof. intro N. unfold line_number. rewrite split_on_line by auto. reflexivity. Qed.
Lemma attribute_effect wc s offset w : ~ In 10%N s -> word_at s offset w -> strike w s <> s ->
  fix_error wc s (EExpat 4 1 offset) = Ok (strike w s).
Proof. intros N W D. apply fix_recovers; auto. eapply recovers_word; eauto using line_one. Qed.
Lemma attribute_no_effect wc s offset w : ~ In 10%N s -> word_at s offset w -> strike w s = s ->
  fix_error wc s (EExpat 4 1 offset) = Ok (cut_line s).
Proof. intros N W D. apply fix_recovers; auto. rewrite <- cut_one_line by auto. eapply recovers_no_word; eauto using line_one. Qed.
Lemma word_exists s offset : offset <= length s -> exists w, word_at s offset w /\ ~ In 32%N w
  /\ forall w', word_at s offset w' -> w' = w.
Proof.
  intro L. destruct (get_word_some s offset L) as (w & _ & W). exists w. split; auto. split.
  - destruct W as (a & u & v & b & _ & _ & _ & N & _). auto.
  - intros w' W'. eapply word_at_unique; eauto.
Qed.
Lemma strike_cases w c s : w <> [] ->
  (forall rest, c :: s = w ++ lit "=" ++ rest -> quote_first rest = false -> strike w (c :: s) = strike w rest)
  /\ (forall rest, c :: s = w ++ rest -> quote_first rest = false ->
        (forall r, rest = lit "=" ++ r -> quote_first r = true) -> strike w (c :: s) = strike w rest)
  /\ ((forall rest, c :: s = w ++ rest -> quote_first rest = true) -> strike w (c :: s) = c :: strike w s)
  /\ strike w [] = [].
Proof.
  intro N. destruct w as [|x w]; [congruence|]. clear N.
  assert (D : forall p rest, deleting (unvalued (x :: w)) (length p) (p ++ rest) = strike (x :: w) rest) by (intros; apply deleting_skip).
  repeat split.
  - intros rest E Q. unfold strike at 1. cbn [deleting]. unfold unvalued at 1. rewrite E.
    rewrite app_assoc, after_app, Q. rewrite <- app_assoc, after_app.
    cbn in E. inversion E; subst. cbn [length].
    replace (S (length w)) with (length (w ++ lit "=")) by (rewrite app_length; change (length (lit "=")) with 1; lia).
    change (w ++ 61%N :: rest) with (w ++ lit "=" ++ rest). rewrite app_assoc. apply D.
  - intros rest E Q H. unfold strike at 1. cbn [deleting]. unfold unvalued at 1. rewrite E, after_app.
    change (lit "=") with [61%N]. rewrite after_app_eq, after_app. cbn in E. inversion E; subst.
    destruct rest as [|d rest]; [rewrite Q; apply D|]. destruct (N.eqb_spec 61 d) as [<-|Nd].
    + rewrite (H rest eq_refl). cbn [quote_first N.eqb Pos.eqb orb]. apply D.
    + rewrite Q. apply D.
  - intro H. unfold strike at 1. cbn [deleting]. unfold unvalued at 1.
    change (lit "=") with [61%N]. rewrite after_app_eq. destruct (after (x :: w) (c :: s)) as [rest|] eqn:E; auto.
    apply after_some in E. specialize (H rest E). destruct rest as [|d rest]; [discriminate|].
    rewrite H. destruct (N.eqb_spec 61 d) as [<-|Nd]; [discriminate|]. reflexivity.
Qed.
Lemma element_text tag l children h :
  exists h' e, convert_element (DElem tag l children) h = (h', [e]) /\ e_name e = tag /\
  match children with
  | [] => e_value e = []
  | first :: _ => if existsb is_elem_node children then e_value e = [] else e_value e = strip (node_value first)
  end.
Proof.
  destruct (element_attributes tag l children h) as (h' & e & E & N & V & _). exists h', e. split; auto. split; auto.
  rewrite V. unfold text_of. destruct children as [|n ch]; auto. destruct (existsb _ _); auto.
Qed.
