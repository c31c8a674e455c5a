(** A byte order mark before the text. *)
From Coq Require Import String.
From Verif Require Export SpecByteMark LemXml3.
Local Open Scope string_scope.
Local Open Scope list_scope.

Lemma clean_marked x : clean (marked x) = marked (clean x).
Proof. reflexivity. Qed.
Lemma marked_line x : ~ In 10%N x -> ~ In 10%N (marked x).
Proof. intros N [I|I]; [discriminate|auto]. Qed.
Lemma cut_line_marked l : cut_line (marked l) = marked (cut_line l).
Proof.
  unfold marked. apply cut_line_keep. destruct (split_last 62 l) as [[before tail]|]; [|exact I].
  destruct (split_last 32 before); [reflexivity|exact I].
Qed.
Lemma cut_marked x : ~ In 10%N x -> cut (marked x) = marked (cut x).
Proof. intros N. unfold cut. rewrite !split_on_line by auto using marked_line. apply cut_line_marked. Qed.
Lemma strike_marked w x : ~ In 65279%N w -> strike w (marked x) = marked (strike w x).
Proof.
  intros N. unfold strike, marked. cbn [deleting].
  replace (unvalued w (65279%N :: x)) with 0; [reflexivity|]. unfold unvalued. destruct w as [|c w]; [reflexivity|].
  cbn [app after]. destruct (N.eqb_spec c 65279) as [->|D]; [|reflexivity]. destruct N. left. reflexivity.
Qed.
Lemma marked_inj x y : marked x = marked y -> x = y.
Proof. intros [= E]. exact E. Qed.
Lemma word_marked x column w : word_at x column w -> In 32%N (firstn column x) ->
  word_at (marked x) (S column) w.
Proof.
  intros (a & u & v & b & -> & <- & -> & N & NV & A & B) I.
  exists (marked a), u, v, b. split; [reflexivity|]. split; [reflexivity|]. split; [reflexivity|]. repeat split; auto.
  destruct A as [->|(a' & ->)]; [|right; exists (marked a'); reflexivity].
  exfalso. cbn [app] in I. rewrite firstn_app, Nat.sub_diag, firstn_all, firstn_O, app_nil_r in I. apply N. apply in_app_iff. left. exact I.
Qed.
Lemma recovers_marked x e y : ~ In 10%N x -> ~ In 65279%N x -> recovers x e y ->
  (forall code line column, e = EExpat code line column -> line = 1) ->
  (forall column, e = EExpat 4 1 column -> In 32%N (firstn column x)) ->
  recovers (marked x) (one_further e) (marked y).
Proof.
  intros N M R L S. destruct R as [e NE|code line column C|line column l w LN W K|line column l w LN W K].
  - destruct e as [| |code line column|]; try (constructor; discriminate). destruct (NE _ _ _ eq_refl).
  - rewrite (L _ _ _ eq_refl), <- cut_marked by exact N. constructor. exact C.
  - pose proof (L _ _ _ eq_refl) as ->. rewrite line_one in LN by exact N. injection LN as <-.
    assert (MW : ~ In 65279%N w).
    { destruct W as (a & u & v & b & -> & _ & -> & _). intros I. apply M. rewrite !in_app_iff in *. tauto. }
    rewrite <- strike_marked by exact MW. apply recovers_word with (line := marked x).
    + apply line_one, marked_line, N.
    + apply word_marked; [exact W|apply S; reflexivity].
    + rewrite strike_marked by exact MW. intros Q. apply K, marked_inj, Q.
  - pose proof (L _ _ _ eq_refl) as ->. rewrite line_one in LN by exact N. injection LN as <-.
    assert (MW : ~ In 65279%N w).
    { destruct W as (a & u & v & b & -> & _ & -> & _). intros I. apply M. rewrite !in_app_iff in *. tauto. }
    rewrite <- cut_marked by exact N. apply recovers_no_word with (line := marked x) (w := w).
    + apply line_one, marked_line, N.
    + apply word_marked; [exact W|apply S; reflexivity].
    + rewrite strike_marked by exact MW. rewrite K. reflexivity.
Qed.
Lemma fails_marked x e : ~ In 10%N x -> (forall code line column, e = EExpat code line column -> line = 1) ->
  recovery_fails x e <-> recovery_fails (marked x) (one_further e).
Proof.
  intros N L. split; intros (line & column & E & F).
  - subst e. pose proof (L _ _ _ eq_refl) as ->. exists 1, (S column). split; [reflexivity|].
    rewrite line_one in * by auto using marked_line. cbn [marked length]. lia.
  - destruct e as [| |code line' column'|]; try discriminate E. pose proof (L _ _ _ eq_refl) as ->. cbn [one_further] in E.
    injection E as -> <- <-. exists 1, column'. split; [reflexivity|]. rewrite line_one in * by auto using marked_line.
    cbn [marked length] in F. lia.
Qed.

Section Mark.
Variable ps : str -> res document.
Hypothesis S : skips_mark ps.

Lemma no_mark_first x : ~ In 65279%N x -> hd_error x <> Some 65279%N.
Proof. destruct x as [|c x]; [discriminate|]. intros N [= ->]. apply N. left. reflexivity. Qed.
Lemma reaches_marked k x y : reaches ps k x y -> ~ In 10%N x -> ~ In 65279%N x -> no_first_word ps x ->
  reaches ps k (marked x) (marked y) /\ ~ In 10%N y /\ ~ In 65279%N y.
Proof.
  induction 1 as [x|k x e x' y P R K IH]; intros N M W; [split; [constructor|auto]|].
  assert (N' : ~ In 10%N x') by (eapply recovers_one_line; eassumption).
  assert (M' : ~ In 65279%N x') by (intros I; apply M; eapply subseq_In; [eapply recovers_subseq; exact R|exact I]).
  assert (W' : no_first_word ps x').
  { intros j z column Z PZ. apply (W (Datatypes.S j) z column); [|exact PZ]. econstructor; eassumption. }
  destruct (IH N' M' W') as (IH1 & IH2). split; [|exact IH2].
  econstructor; [|eapply recovers_marked; [exact N|exact M|exact R| |]|exact IH1].
  - rewrite (proj1 S) by (apply no_mark_first; exact M). rewrite P. reflexivity.
  - intros code line column ->. apply (proj2 S x code line column); assumption.
  - intros column ->. apply (W 0 x column); [constructor|exact P].
Qed.
Lemma read_marked x d : ~ In 65279%N (clean x) -> no_first_word ps (clean x) -> read_as ps x d -> read_as ps (marked x) d.
Proof.
  intros M W (k & y & K & R & P). destruct (reaches_marked k _ y R (clean_one_line x) M W) as (R' & N' & M').
  exists k, (marked y). split; [exact K|]. split; [rewrite clean_marked; exact R'|].
  rewrite (proj1 S) by (apply no_mark_first; exact M'). rewrite P. reflexivity.
Qed.
Lemma rejected_marked x e : ~ In 65279%N (clean x) -> no_first_word ps (clean x) -> rejected_with ps x e ->
  rejected_with ps (marked x) (one_further e).
Proof.
  intros M W [(y & R & P & F)|(k & y & e0 & K & R & P & F & ->)];
    destruct (reaches_marked _ _ y R (clean_one_line x) M W) as (R' & N' & M').
  - left. exists (marked y). split; [rewrite clean_marked; exact R'|]. split.
    + rewrite (proj1 S) by (apply no_mark_first; exact M'). rewrite P. reflexivity.
    + intros F'. apply F. apply (fails_marked y e); [exact N'| |exact F']. intros code line column ->. apply (proj2 S y code line column); assumption.
  - right. exists k, (marked y), (one_further e0). split; [exact K|]. split; [rewrite clean_marked; exact R'|]. split.
    + rewrite (proj1 S) by (apply no_mark_first; exact M'). rewrite P. reflexivity.
    + split; [|reflexivity]. apply (fails_marked y e0); [exact N'| |exact F]. intros code line column ->. apply (proj2 S y code line column); assumption.
Qed.
End Mark.

(** The conversion of a document raises no error of the parser. *)
Lemma rseq_raise {A} (rs : list (res A)) e : rseq rs = Raise e -> exists r, In r rs /\ r = Raise e.
Proof.
  induction rs as [|r rs IH]; cbn [rseq]; [discriminate|]. destruct r as [a|e']; cbn [rbind].
  - destruct (rseq rs) as [l|e']; cbn [rbind]; [discriminate|]. intros [= ->]. destruct (IH eq_refl) as (r & I & E). exists r. split; [right|]; assumption.
  - intros [= ->]. exists (Raise e). split; [left|]; reflexivity.
Qed.
Lemma latex_no_parser_error t e : latex_of t = Raise e -> one_further e = e.
Proof.
  intros R. destruct (raised_kinds t e R) as (u & _ & [(k & _ & _ & ->)|[(_ & _ & ->)|(_ & _ & _ & _ & ->)]]); reflexivity.
Qed.
Lemma document_no_parser_error d : further (document_latex d) = document_latex d.
Proof.
  unfold document_latex. destruct (rseq (map latex_of (math_trees d))) as [l|e] eqn:E; [reflexivity|]. cbn [rbind further].
  destruct (rseq_raise _ _ E) as (r & I & ->). apply in_map_iff in I. destruct I as (t & I & _). rewrite (latex_no_parser_error t e I). reflexivity.
Qed.

Theorem convert_marked wc ps x h : skips_mark ps -> ~ In 65279%N (clean x) -> no_first_word ps (clean x) ->
  snd (mathml_to_latex wc ps (marked x) h) = further (snd (mathml_to_latex wc ps x h)).
Proof.
  intros S M W. destruct (read_or_rejected wc ps x) as [(d & R)|(e & R)].
  - rewrite (convert_read_snd wc ps x d h R), (convert_read_snd wc ps (marked x) d h (read_marked ps S x d M W R)).
    symmetry. apply document_no_parser_error.
  - rewrite (convert_rejected wc ps x e h R), (convert_rejected wc ps (marked x) _ h (rejected_marked ps S x e M W R)). reflexivity.
Qed.
Theorem text_marked wc ps d x h : reads ps -> skips_mark ps -> document_text d (clean x) ->
  snd (mathml_to_latex wc ps (marked x) h) = document_latex d.
Proof.
  intros R S D. apply convert_read_snd. exists 0, (marked (clean x)). split; [lia|]. rewrite clean_marked. split; [constructor|].
  rewrite (proj1 S); [rewrite (R d _ D); reflexivity|]. pose proof (starts_no_bom _ (starts_document d _ D)) as Q.
  destruct (clean x) as [|c y]; cbn [hd_error]; [discriminate|]. intros [= ->]. discriminate Q.
Qed.

(** The parser of ModelExpat.v. *)
Lemma line_column_further before : forall column line c, line_column 1 column before = (line, c) ->
  line_column 1 (S column) before = (line, if Nat.eqb line 1 then S c else c).
Proof.
  assert (G : forall b0 line0 column line c, line_column line0 column b0 = (line, c) -> line0 <= line).
  { induction b0 as [|d b IH]; intros line0 column line c; cbn [line_column]; [intros E; injection E; lia|].
    destruct (d =? 10)%N; intros E; apply IH in E; lia. }
  induction before as [|d b IH]; intros column line c; cbn [line_column]; [intros [= <- <-]; reflexivity|].
  destruct (d =? 10)%N; [|apply IH]. intros E. rewrite E. apply G in E. destruct line as [|[|line]]; [lia|lia|reflexivity].
Qed.
Theorem parser_skips_mark : skips_mark parse_text.
Proof.
  split.
  - intros x N. unfold marked. assert (B : match x with c :: _ => (c =? 65279)%N | [] => false end = false).
    { destruct x as [|c x]; [reflexivity|]. apply N.eqb_neq. intros ->. apply N. reflexivity. }
    rewrite (parse_no_bom x B). change (parse_text (65279%N :: x)) with (parse_from 1 x). unfold parse_from.
    destruct (existsb surrogate x); [reflexivity|]. match goal with |- context [if ?b then _ else _] => destruct b end; [reflexivity|].
    destruct (read_text x) as [d|code pos|]; [reflexivity| |reflexivity].
    destruct (line_column 1 0 (firstn pos x)) as [line c] eqn:E. rewrite (line_column_further _ _ _ _ E).
    destruct line as [|[|line]]; reflexivity.
  - assert (F : forall column0 x code line column, ~ In 10%N x -> parse_from column0 x = Raise (EExpat code line column) -> line = 1).
    { intros column0 x code line column N. unfold parse_from. destruct (existsb surrogate x); [discriminate|].
      match goal with |- context [if ?b then _ else _] => destruct b end; [discriminate|].
      destruct (read_text x) as [d|code' pos|]; [discriminate| |discriminate].
      assert (G : forall b c, ~ In 10%N b -> fst (line_column 1 c b) = 1).
      { induction b as [|d b IH]; intros c NB; [reflexivity|]. cbn [line_column]. destruct (N.eqb_spec d 10) as [->|D]; [destruct NB; left; reflexivity|].
        apply IH. intros I. apply NB. right. exact I. }
      specialize (G (firstn pos x) column0). destruct (line_column 1 column0 (firstn pos x)) as [l c]. intros [= _ <- _]. apply G.
      intros I. apply N. rewrite <- (firstn_skipn pos x). apply in_app_iff. left. exact I. }
    intros [|c x] code line column N; unfold parse_text; [apply F; exact N|].
    destruct (c =? 65279)%N; apply F; [intros I; apply N; right; exact I|exact N].
Qed.
