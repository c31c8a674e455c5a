(** Text before and after the root element. *)
From Coq Require Import String Lia ZifyBool ZifyN.
From Verif Require Export SpecAround LemXml3.
Local Open Scope string_scope.
Local Open Scope list_scope.

Lemma run_loose loose w : Forall name_rest w -> forall r pos s p nm, after_word r -> s_scan s = Loose p nm ->
  run loose pos s (w ++ r) = Wrong (loose_code s) p.
Proof.
  induction 1 as [|c w C W IH]; intros r pos s p nm A E.
  - destruct r as [|c r]; cbn [app run].
    + unfold finish. rewrite E. reflexivity.
    + unfold step. rewrite E. unfold loose_step. destruct A as [_ A].
      replace (name_char c) with false by (destruct A as [A|A]; [chars; lia|repeat (destruct A as [<-|A]; [reflexivity|]); destruct A]).
      replace (is_white c || existsb (N.eqb c) (lit ",[)|>%")) with true; [reflexivity|]. symmetry. apply orb_true_iff.
      destruct A as [A|A]; [left; chars; lia|right; apply existsb_exists; exists c; split; [exact A|apply N.eqb_refl]].
  - cbn [app run]. unfold step. rewrite E. unfold loose_step. replace (name_char c) with true by (chars; lia). unfold goto.
    rewrite (IH r (S pos) (with_scan s (Loose p nm)) p nm A eq_refl). reflexivity.
Qed.
Lemma run_word loose w r pos doc seen k : a_word w -> after_word r ->
  run loose pos (State doc [] seen (Between k)) (w ++ r) = Wrong (if seen then 9 else 2) pos.
Proof.
  intros [NE W] A. destruct W as [|c w C W]; [congruence|]. cbn [app run]. unfold step at 1. cbn [s_scan s_stack].
  replace (c =? 60)%N with false by (chars; lia). replace (is_white c) with false by (chars; lia). replace (xml_char c) with true by (chars; lia). cbn [negb].
  unfold loose_start. replace (name_char c) with true by (chars; lia). unfold goto. erewrite (run_loose loose w W r _ _ pos (name_start c) A) by reflexivity. reflexivity.
Qed.
Lemma word_good w : a_word w -> good_text w.
Proof. intros [_ W]. eapply Forall_impl; [|exact W]. intros c C. chars. lia. Qed.
Definition unmarked (x : str) : Prop := match x with c :: _ => (c =? 65279)%N | [] => false end = false.
Lemma unmarked_word w r : a_word w -> unmarked (w ++ r).
Proof. intros [NE W]. destruct W as [|c w C W]; [congruence|]. unfold unmarked. cbn. chars. lia. Qed.
Lemma verdict_unmarked x code pos : good_text x -> unmarked x -> ~ In 10%N (firstn pos x) -> pos <= length x -> read_text x = Wrong code pos ->
  parse_text x = Raise (EExpat code 1 pos).
Proof.
  intros G S N L R. rewrite (parse_no_bom x S). unfold parse_from. destruct (good_no_special _ G) as (A & B). rewrite A, B, S. cbn [orb].
  rewrite R, line_column_one by exact N. rewrite firstn_length_le by exact L. reflexivity.
Qed.
Theorem parser_reports_words : reports_words parse_text.
Proof.
  split.
  - intros b x w r O W A NL. assert (GX := good_outer b x O).
    assert (E0 : run false 0 start (x ++ w ++ r) = Wrong 2 (length x)).
    { unfold start. rewrite (run_steps _ _ _ _ _ _ (steps_outer false b x O 0 [] false)). rewrite (run_word false w r _ _ _ _ W A). reflexivity. }
    apply verdict_unmarked.
    + apply good_app; [exact GX|]. apply good_app; [apply word_good; exact W|apply A].
    + destruct x as [|c x]; [exact (unmarked_word w r W)|]. pose proof (starts_outer b (c :: x) [] O I) as S. rewrite app_nil_r in S. apply starts_no_bom in S. exact S.
    + rewrite firstn_app, firstn_all, Nat.sub_diag. cbn [firstn]. rewrite app_nil_r. exact NL.
    + rewrite app_length. lia.
    + rewrite read_plain; rewrite E0; [reflexivity|discriminate].
  - intros d x w r D W A NL. assert (GX := good_document d x D). assert (SX := starts_document d x D).
    destruct D as (loose & b & x1 & n & l & ch & x2 & a & x3 & -> & -> & P & T & O2).
    destruct (prolog_reads loose b x1 P) as (x1' & L & O1 & R).
    assert (E0 : run loose 0 start (x1' ++ x2 ++ x3 ++ w ++ r) = Wrong 9 (length (x1 ++ x2 ++ x3))).
    { rewrite (run_steps _ _ _ _ _ _ (steps_outer loose b x1' O1 0 [] false)).
      destruct (proj1 (nodes_are_read loose) _ _ _ T (0 + length x1') (rev b ++ []) [] false 0) as (k' & K & E); [exact (fun _ => eq_refl)|intros p; reflexivity|].
      rewrite (run_steps _ _ _ _ _ _ E). rewrite (K eq_refl). unfold add_node; cbn [s_stack s_doc s_seen s_scan orb is_elem_node].
      rewrite (run_steps _ _ _ _ _ _ (steps_outer loose a x3 O2 _ _ true)). rewrite (run_word loose w r _ _ _ _ W A). rewrite !app_length. f_equal. lia. }
    assert (NE : x1 ++ x2 ++ x3 <> []).
    { intros Q. apply app_eq_nil in Q. destruct Q as [_ Q]. apply app_eq_nil in Q. destruct Q as [Q _]. apply (proj2 (starts_node _ _ _ _ T eq_refl) Q). }
    apply parse_verdict.
    + apply good_app; [exact GX|]. apply good_app; [apply word_good; exact W|apply A].
    + apply starts_more; assumption.
    + rewrite firstn_app, firstn_all, Nat.sub_diag. cbn [firstn]. rewrite app_nil_r. exact NL.
    + rewrite !app_length. lia.
    + rewrite <- !app_assoc. rewrite R; rewrite E0; [reflexivity|discriminate].
Qed.

(** ** The library on such texts *)
Lemma cut_cases_lt s : ~ In 10%N s -> cut s = s
  \/ exists a b t, s = a ++ [32%N] ++ b ++ [62%N] ++ t /\ In 60%N a /\ cut s = a ++ [32%N] ++ t.
Proof.
  intros N. rewrite cut_one_line by exact N. unfold cut_line.
  destruct (split_last 62 s) as [[before t]|] eqn:E1; [|left; reflexivity]. apply split_last_some in E1. destruct E1 as [-> NT].
  destruct (split_last 32 before) as [[a b]|] eqn:E2; [|left; reflexivity]. apply split_last_some in E2. destruct E2 as [-> NB].
  destruct (existsb (N.eqb 60) a) eqn:X; [|left; reflexivity]. right. exists a, b, t. split; [rewrite <- app_assoc; reflexivity|]. split; [|reflexivity].
  apply existsb_exists in X. destruct X as (c & I & Q). apply N.eqb_eq in Q. subst c. exact I.
Qed.
(** Generic recovery does nothing to what comes before the first [<]. *)
Lemma cut_keeps_before m r : ~ In 60%N m -> ~ In 10%N (m ++ r) -> Forall good_char r -> exists r', cut (m ++ r) = m ++ r' /\ Forall good_char r'.
Proof.
  intros NM N G. destruct (cut_cases_lt (m ++ r) N) as [E|(a & b & t & E & I & E')]; [exists r; auto|].
  destruct (prefix_cases _ _ _ _ E) as [(r1 & ->)|(b' & -> & NB)].
  - rewrite E'. exists (r1 ++ [32%N] ++ t). split; [rewrite <- app_assoc; reflexivity|]. rewrite <- app_assoc in E. apply app_inv_head in E. subst r.
    apply Forall_app in G. destruct G as [G1 G]. apply Forall_app in G. destruct G as [G2 G]. apply Forall_app in G. destruct G as [G3 G].
    apply Forall_app in G. destruct G as [_ G]. repeat (apply Forall_app; split; auto).
  - exfalso. apply NM. apply in_app_iff. left. exact I.
Qed.
Lemma reaches_before ps m code pos : code <> 4 -> ~ In 60%N m -> (forall r, Forall good_char r -> ps (m ++ r) = Raise (EExpat code 1 pos)) ->
  forall k r, Forall good_char r -> ~ In 10%N (m ++ r) -> exists r', reaches ps k (m ++ r) (m ++ r') /\ Forall good_char r' /\ ~ In 10%N (m ++ r').
Proof.
  intros NC NM P. induction k as [|k IH]; intros r G N; [exists r; split; [constructor|auto]|].
  destruct (cut_keeps_before m r NM N G) as (r' & C & G').
  assert (N' : ~ In 10%N (m ++ r')) by (rewrite <- C; intros I; apply N; eapply subseq_In; [apply cut_subseq|exact I]).
  destruct (IH r' G' N') as (r2 & RE & G2 & N2). exists r2. split; [|auto].
  eapply reaches_S; [apply (P r G)|apply recovers_generic; exact NC|]. rewrite C. exact RE.
Qed.
Lemma words_before wc ps x b w r h : reports_words ps -> Forall blank b -> a_word w -> after_word r -> clean x = b ++ w ++ r ->
  mathml_to_latex wc ps x h = (h, Raise (EExpat 2 1 (length b))).
Proof.
  intros [R _] B W A C. assert (N := clean_one_line x). rewrite C in N. assert (NB : ~ In 10%N b) by (rewrite in_app_iff in N; tauto).
  assert (NB6 : ~ In 60%N (b ++ w)).
  { rewrite in_app_iff. intros [I|I]; [rewrite Forall_forall in B; specialize (B _ I); chars; lia|]. destruct W as [_ W]. rewrite Forall_forall in W. specialize (W _ I). chars. lia. }
  pose proof (R [] b w) as R1. destruct r as [|c r].
  - apply (exact_stuck wc ps x h 2 (length b)); [rewrite C; apply R1; [apply outer_white; exact B|exact W|exact A|exact NB]|discriminate|].
    rewrite C. destruct (cut_cases_lt _ N) as [E|(a & b' & t & E & I & _)]; [exact E|]. exfalso. apply NB6. rewrite app_nil_r in E. rewrite E. apply in_app_iff. left. exact I.
  - destruct A as [G A]. inversion G as [|? ? Gc Gr]; subst. set (m := b ++ w ++ [c]).
    assert (NM : ~ In 60%N m). { unfold m. rewrite app_assoc, in_app_iff. intros [I|[->|[]]]; [auto|]. destruct A as [A|A]; [chars; lia|]. repeat (destruct A as [A|A]; [discriminate|]). destruct A. }
    assert (P : forall r', Forall good_char r' -> ps (m ++ r') = Raise (EExpat 2 1 (length b))).
    { intros r' G'. unfold m. rewrite <- !app_assoc. apply R1; [apply outer_white; exact B|exact W|split; [constructor; assumption|exact A]|exact NB]. }
    assert (C' : clean x = m ++ r) by (rewrite C; unfold m; rewrite <- !app_assoc; reflexivity).
    apply convert_rejected. left. rewrite C'. assert (N' : ~ In 10%N (m ++ r)) by (rewrite <- C'; apply clean_one_line).
    destruct (reaches_before ps m 2 (length b) ltac:(discriminate) NM P 4 r Gr N') as (r' & RE & G' & _).
    exists (m ++ r'). split; [exact RE|]. split; [apply P; exact G'|]. intros (l & o & E & _). discriminate.
Qed.
Lemma words_after wc ps x d u w r h : reports_words ps -> document_text d u -> a_word w -> after_word r -> clean x = u ++ w ++ r -> no_space_before_close (clean x) ->
  mathml_to_latex wc ps x h = (h, Raise (EExpat 9 1 (length u))).
Proof.
  intros [_ R] D W A C NS. assert (N := clean_one_line x). apply (exact_stuck wc ps x h 9 (length u)); [|discriminate|].
  - rewrite C. apply (R d); auto. rewrite C in N. rewrite in_app_iff in N. tauto.
  - destruct (cut_cases_lt _ N) as [E|(a & b & t & E & _)]; [exact E|]. exfalso. exact (NS a b t E).
Qed.
