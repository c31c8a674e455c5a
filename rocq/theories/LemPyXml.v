(** xml_to_mathml/adapter.py: the source does what the model does. *)
From Coq Require Import String.
From Verif Require Export LemPyDoc.
Local Open Scope string_scope.
Local Open Scope list_scope.

Lemma run_catch {A} (h : value -> MM A) m S : run (catch h m) S = match run m S with (S1, Raised e) => run (h e) S1 | x => x end.
Proof.
  revert S. induction m as [a|e| |f k IH]; intros S; cbn [catch run]; try reflexivity.
  destruct (f S) as [[S1 v]|]; [apply IH | reflexivity].
Qed.
Global Arguments catch : simpl never.
Lemma evs_catch_done {K} {A} (h : nat -> value -> MM A) m S S1 a : evs K m S S1 (Done a) -> evs K (fun n => catch (h n) (m n)) S S1 (Done a).
Proof. intros H n Hn. rewrite run_catch, H by exact Hn. reflexivity. Qed.
Lemma evs_catch_raised {K} {A} (h : nat -> value -> MM A) m S S1 e S2 o :
  evs K m S S1 (Raised e) -> evs K (fun n => h n e) S1 S2 o -> evs K (fun n => catch (h n) (m n)) S S2 o.
Proof. intros H H1 n Hn. rewrite run_catch, H by exact Hn. apply H1. exact Hn. Qed.
Lemma put_nth {A} (l : list A) i a b : nth_error l i = Some a -> nth_error (put l i b) i = Some b.
Proof. revert i. induction l as [|c l IH]; intros [|i] H; cbn in *; try discriminate; auto. Qed.
Lemma put_put {A} (l : list A) i a b : put (put l i a) i b = put l i b.
Proof. revert i. induction l as [|c l IH]; intros [|i]; cbn; congruence. Qed.

Section Xml.
Variable word_char : N -> bool.
Variable parse_string : str -> res document.
Notation C := (call word_char parse_string).
Notation "'gives' k f args v" := (forall K (HK : k <= K) S, evs K (fun n => C n f args []) S S (Done v)) (at level 10, k at level 9, f at level 9, args at level 9, v at level 9).

Lemma regex_sub r p s : req r p -> gives 1 (VPrim (VRegex r) "sub") [VStr []; VStr s] (VStr (re_sub p (fun _ => []) s)).
Proof.
  intros H K HK S. penter. unfold substituted. change (expand [] []) with (Some (@nil N)). cbv iota. rewrite (req_sub r p _ (fun _ => []) s H); [prun | reflexivity].
Qed.
Hint Resolve regex_sub : exact_bound.
Lemma breaks_ok self x : gives 2 (VMethod self "XmlToMathMLAdapter" "_remove_line_breaks") [VStr x] (VStr (remove_line_breaks x)).
Proof. intros K HK S. destruct (break_pattern word_char) as (r & E & H). penter. prun. rewrite E. simple. prun. simple. prun. Qed.
Lemma prefixes_ok self x : gives 2 (VMethod self "XmlToMathMLAdapter" "_remove_ms_word_prefixes") [VStr x] (VStr (remove_ms_word_prefixes x)).
Proof. intros K HK S. destruct (prefix_pattern word_char) as (r & E & H). penter. prun. rewrite E. simple. prun. simple. prun. Qed.
Hint Resolve breaks_ok prefixes_ok : exact_bound.

(** ** The adapter, which keeps the text in a field *)
Definition xml_object x k : string * list (string * value) :=
  ("XmlToMathMLAdapter", [("_xml", VStr x); ("_elements_converter", doc_adapter); ("_error_handler", handler k)]).
Definition text_is (r k : nat) (x : str) (S : memory) : Prop := nth_error (objects S) r = Some (xml_object x k).
Definition with_text (r k : nat) (x : str) (S : memory) : memory := Memory (dicts S) (put (objects S) r (xml_object x k)).
Lemma with_text_is r k x y S : text_is r k x S -> text_is r k y (with_text r k y S).
Proof. intros H. eapply put_nth. exact H. Qed.
Lemma with_text_same r k x S : text_is r k x S -> with_text r k x S = S.
Proof.
  unfold text_is, with_text. destruct S as [d o]. cbn. intros H. f_equal. revert r H. induction o as [|a o IH]; intros [|r] H; cbn in *; try discriminate; [inversion H; reflexivity|].
  rewrite IH by exact H. reflexivity.
Qed.
Lemma with_text_twice r k x y S : with_text r k y (with_text r k x S) = with_text r k y S.
Proof. unfold with_text. cbn. rewrite put_put. reflexivity. Qed.

Lemma adapter_fix_error r k x e S K (HK : length x + 11 <= K) : text_is r k x S ->
  evs K (fun n => C n (VMethod (VRef r) "XmlToMathMLAdapter" "_fix_error") [parser_error e] []) S
    (match fix_error word_char x e with Ok y => with_text r k y S | Raise _ => S end)
    (match fix_error word_char x e with Ok _ => Done VNone | Raise e' => Raised (parser_error e') end).
Proof.
  intros H. unfold text_is, xml_object in H. pose proof (fix_error_ok word_char parse_string k e x S (pred K) ltac:(lia)) as W. unfold with_text, xml_object. unfold handler in *.
  destruct (fix_error word_char x e); cbn [res_out] in W; penter; prun.
Qed.

Section Loop.
Variables r k : nat.
Definition loop_names (last : option exn) (extra : names) : names :=
  [("self", VRef r); ("__class__", VClass "XmlToMathMLAdapter"); ("exception", match last with None => VNone | Some e => parser_error e end)] ++ extra.
Definition nodes_value (ns : list dnode) := VList (map VNode ns).
Lemma elements_ok x S K (HK : length x + 12 <= K) : text_is r k x S -> ~ In 10%N x ->
  evs K (fun n => C n (VMethod (VRef r) "XmlToMathMLAdapter" "_mathml_elements") [] []) S
    (with_text r k (fst (parse_loop word_char parse_string 5 x None)) S)
    (outcome nodes_value (snd (parse_loop word_char parse_string 5 x None))).
Proof.
  intros H Hx. set (result := parse_loop word_char parse_string 5 x None). assert (F : exists five, length five = 5 /\ gives 1 (VBuiltin "range") [VInt 5] (VList five)).
  { eexists. split; [|intros K0 HK0 S0; penter; apply evs_ret]. reflexivity. }
  destruct F as (five & L5 & F). penter. repeat apply evs_assoc. eapply evs_bnd; [apply F; lia|]. cbn [items bnd]. repeat apply evs_assoc.
  match goal with |- evs _ (fun n => bnd (for_loop (@?b n) _ _ _) (@?c n)) _ _ _ => set (body := b); set (cont := c) end.
  assert (T : forall extra i last y S, length y + 11 <= pred K -> text_is r k y S -> extra = [] \/ (exists a b, extra = [("_", a); ("e", b)]) ->
    match parse_string y with
    | Ok d => evs (pred K) (fun n => body n (assign (loop_names last extra) "_" i)) S S (Done (Returned (nodes_value (get_elements_by_tag_name d (lit "math")))))
    | Raise e =>
        match fix_error word_char y e with
        | Raise e' => evs (pred K) (fun n => body n (assign (loop_names last extra) "_" i)) S S (Raised (parser_error e'))
        | Ok z => exists b, evs (pred K) (fun n => body n (assign (loop_names last extra) "_" i)) S (with_text r k z S) (Done (Next (loop_names (Some e) [("_", i); ("e", b)])))
        end
    end).
  { clear. intros extra i last y S HK H He.
    assert (P : forall S, evs (pred K) (fun n => C n (VBuiltin "parseString") [VStr y] []) S S (match parse_string y with Ok d => Done (VDocument d) | Raise e => Raised (parser_error e) end)).
    { intros S0. penter. destruct (parse_string y); prun. }
    pose proof (fun e => adapter_fix_error r k y e S (pred K) HK H) as F. unfold text_is, xml_object in H.
    destruct (parse_string y) as [d|e].
    - destruct He as [-> | (a & b & ->)]; subst body; simple; apply evs_catch_done; prun.
    - specialize (F e). destruct (fix_error word_char y e) as [z|e'].
      + exists (parser_error e). destruct He as [-> | (a & b & ->)]; subst body; simple; eapply evs_catch_raised; [prun | simple; prun | prun | simple; prun].
      + destruct He as [-> | (a & b & ->)]; subst body; simple; eapply evs_catch_raised; [prun | simple; prun | prun | simple; prun]. }
  assert (G : forall l y last S extra, length y <= length x -> ~ In 10%N y -> text_is r k y S -> (extra = [] \/ (exists a b, extra = [("_", a); ("e", b)])) -> (l = [] -> last <> None) ->
    evs (pred K) (fun n => bnd (for_loop (body n) ["_"] l (loop_names last extra)) (cont n)) S
      (with_text r k (fst (parse_loop word_char parse_string (length l) y last)) S) (outcome nodes_value (snd (parse_loop word_char parse_string (length l) y last)))).
  { induction l as [|i l IH]; intros y last S0 extra Ly Ny Hy He Hl.
    - destruct last as [e|]; [|destruct (Hl eq_refl eq_refl)]. cbn [for_loop bnd length parse_loop fst snd outcome]. rewrite with_text_same by exact Hy.
      subst cont. clear. destruct e; simple; apply evs_throw.
    - cbn [for_loop targets bnd length parse_loop]. specialize (T extra i last y S0 ltac:(lia) Hy He). apply evs_assoc.
      destruct (parse_string y) as [d|e].
      + cbn [fst snd outcome]. rewrite with_text_same by exact Hy. eapply evs_bnd; [exact T|]. subst cont. clear. cbv iota. simple. prun.
      + destruct (fix_error word_char y e) as [z|e'] eqn:EF.
        * destruct T as (b & T). eapply evs_bnd; [exact T|]. cbv iota. rewrite <- (with_text_twice r k z (fst (parse_loop word_char parse_string (length l) z (Some e))) S0).
          destruct (LemCount.fix_length _ _ _ _ Ny EF) as (Lz & Nz). apply IH; [lia | exact Nz | eapply with_text_is; exact Hy | right; eauto | discriminate].
        * cbn [fst snd outcome]. rewrite with_text_same by exact Hy. apply evs_bnd_raised. exact T. }
  specialize (G five x None S [] (Nat.le_refl _) Hx H (or_introl eq_refl)). rewrite L5 in G. apply G. intros ->. discriminate.
Qed.
Lemma elements_first x d S K (HK : 3 <= K) : text_is r k x S -> parse_string x = Ok d ->
  evs K (fun n => C n (VMethod (VRef r) "XmlToMathMLAdapter" "_mathml_elements") [] []) S S (Done (nodes_value (get_elements_by_tag_name d (lit "math")))).
Proof.
  intros H E. unfold text_is, xml_object in H.
  assert (F : exists i five, forall K (HK : 1 <= K) S, evs K (fun n => C n (VBuiltin "range") [VInt 5] []) S S (Done (VList (i :: five)))).
  { eexists. eexists. intros K0 HK0 S0. penter; apply evs_ret. }
  destruct F as (i & five & F).
  assert (P : forall K (HK : 1 <= K) S, evs K (fun n => C n (VBuiltin "parseString") [VStr x] []) S S (Done (VDocument d))).
  { intros K0 HK0 S0. penter. rewrite E. prun. }
  penter. repeat apply evs_assoc. eapply evs_bnd; [apply F; lia|]. cbn [items bnd]. repeat apply evs_assoc. cbn [for_loop targets bnd]. repeat apply evs_assoc.
  eapply evs_bnd; [simple; apply evs_catch_done; prun|]. cbv iota. simple. prun.
Qed.
Lemma by_tag_elements t n : Forall (fun m => is_element m = true) (elements_by_tag t n).
Proof.
  induction n as [tag a ch IH|n H] using dnode_ind'; [|destruct n; constructor || discriminate].
  cbn [elements_by_tag]. apply Forall_app. split; [destruct (str_eqb tag t); repeat constructor|].
  induction IH as [|c ch Hc _ IHs]; cbn [flat_map]; [constructor|]. apply Forall_app. split; [exact Hc | exact IHs].
Qed.
Lemma loop_elements fuel : forall x last y ns, parse_loop word_char parse_string fuel x last = (y, Ok ns) -> Forall (fun m => is_element m = true) ns.
Proof.
  induction fuel as [|f IH]; intros x last y ns; cbn [parse_loop].
  - destruct last; intros H; inversion H; constructor.
  - destruct (parse_string x) as [d|e].
    + intros H. inversion H. unfold get_elements_by_tag_name. clear. induction d as [|n d IHd]; cbn [flat_map]; [constructor|]. apply Forall_app. split; [apply by_tag_elements | exact IHd].
    + destruct (fix_error word_char x e) as [z|e']; [apply IH | discriminate].
Qed.
Lemma set_text y z S : text_is r k y S -> set_field r "_xml" (VStr z) S = Some (with_text r k z S, VNone).
Proof. intros H. unfold set_field, with_text. rewrite H. reflexivity. Qed.
Local Opaque set_field.
Lemma convert_start x0 x S S1 S' o w K (HK : 2 <= K) : text_is r k x0 S ->
  evs K (fun n => C n (VMethod (VRef r) "XmlToMathMLAdapter" "_mathml_elements") [] []) (with_text r k (remove_ms_word_prefixes (remove_line_breaks x)) S) S1 w ->
  match w with
  | Done v => evs K (fun n => C n (VMethod doc_adapter "ElementsToMathMLAdapter" "convert") [v] []) S1 S' o
  | Raised e => S' = S1 /\ o = Raised e
  | Stuck => False
  end ->
  evs (Datatypes.S K) (fun n => C n (VMethod (VRef r) "XmlToMathMLAdapter" "convert") [VStr x] []) S S' o.
Proof.
  intros H W V. pose proof (with_text_is _ _ _ (remove_line_breaks x) _ H) as H1. pose proof (with_text_is _ _ _ (remove_ms_word_prefixes (remove_line_breaks x)) _ H1) as H2.
  rewrite with_text_twice in H2. pose proof H as N. unfold text_is, xml_object in N. pose proof H1 as N1. unfold text_is, xml_object in N1. pose proof H2 as N2. unfold text_is, xml_object in N2.
  penter. cbn [pred]. prun. eapply evs_act; [apply (set_text _ _ _ H)|]. simple. prun. 
  eapply evs_act; [apply (set_text _ _ _ H1)|]. rewrite with_text_twice. unfold doc_adapter in *. destruct w as [v|e|]; [|destruct V as (-> & ->)|contradiction]; simple; prun.
Qed.
Definition clean (x : str) : str := remove_ms_word_prefixes (remove_line_breaks x).
Definition found_nodes (x : str) : list dnode := match snd (parse_loop word_char parse_string 5 (clean x) None) with Ok ns => ns | Raise _ => [] end.
Lemma adapter_convert_ok x0 pi x h S K (HK : 2 <= K) : text_is r k x0 S -> in_step pi h S -> 2 * list_max (map node_height (found_nodes x)) + 5 <= K ->
  evs K (fun n => C n (VMethod (VRef r) "XmlToMathMLAdapter" "_mathml_elements") [] []) (with_text r k (clean x) S)
    (with_text r k (fst (parse_loop word_char parse_string 5 (clean x) None)) S) (outcome nodes_value (snd (parse_loop word_char parse_string 5 (clean x) None))) ->
  exists suf y, fst (snd (adapter_convert word_char parse_string x0 x h)) = h ++ suf /\ y = fst (adapter_convert word_char parse_string x0 x h) /\
    evs (Datatypes.S K) (fun n => C n (VMethod (VRef r) "XmlToMathMLAdapter" "convert") [VStr x] []) S (more (with_text r k y S) suf)
      (outcome (fun els => VList (map (elem_value pi) els)) (snd (snd (adapter_convert word_char parse_string x0 x h)))).
Proof.
  intros H Hs HH W. unfold adapter_convert. unfold found_nodes, clean in *. set (x2 := remove_ms_word_prefixes (remove_line_breaks x)) in *.
  destruct (parse_loop word_char parse_string 5 x2 None) as [y [ns|e]] eqn:E; cbn [fst snd outcome] in *.
  - pose proof (loop_elements _ _ _ _ _ E) as F.
    destruct (convert_ok word_char parse_string pi ns h (with_text r k y S) K HH F) as (suf & Es & V); [exact Hs|].
    exists suf, y. destruct (convert_elements ns h) as [h1 els]. cbn [fst snd outcome] in *. split; [exact Es|]. split; [reflexivity|].
    eapply convert_start; [exact HK | exact H | exact W | exact V].
  - exists [], y. rewrite app_nil_r, more_nil. split; [reflexivity|]. split; [reflexivity|]. eapply convert_start; [exact HK | exact H | exact W |]. split; reflexivity.
Qed.
End Loop.
End Xml.
