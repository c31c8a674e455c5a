(** Texts that are not documents: errors of the parser, and what the library makes of them. *)
From Coq Require Import String Lia ZifyBool ZifyN.
From Verif Require Export SpecXml2 LemXml2.
Local Open Scope string_scope.
Local Open Scope list_scope.

Ltac one := cbn [steps]; unfold ModelExpat.step; cbn [s_scan s_stack s_doc s_seen]; unfold goto, with_scan; cbn [s_doc s_stack s_seen s_scan].

(** ** Up to a place between two nodes *)
Definition at_place (o : option str) (stack : list frame) (seen : bool) : Prop :=
  match o with
  | None => stack = [] /\ seen = false
  | Some n => seen = true /\ exists l ch stack', stack = (n, l, ch) :: stack'
  end.
Lemma place_room o stack seen : at_place o stack seen -> stack = [] -> seen = false.
Proof. destruct o; intros P E; cbn in P; [|apply P]. destruct P as (_ & l & ch & stack' & ->). discriminate. Qed.
Lemma steps_inside ps o u : inside ps o u -> exists doc stack seen k,
  steps false 0 start u = Some (State doc stack seen (Between k)) /\ at_place o stack seen /\ same_prefixes stack ps.
Proof.
  induction 1 as [b x O|ps o u n l x ch y U (doc & stack & seen & k & E & P & SP) T Y].
  - exists (rev b ++ []), [], false, 0. split; [apply (steps_outer false b x O)|]. split; [cbn; auto|intros p; reflexivity].
  - destruct (steps_tag false ps n l x T (0 + length u) doc stack seen k (place_room _ _ _ P) SP) as (m & g & E1 & I & FT).
    assert (SP' : same_prefixes ((n, l, []) :: stack) (declared l ++ ps)) by (apply same_deeper; [apply (tag_qualified false ps n l x T)|exact SP]).
    destruct (proj2 (nodes_are_read false) _ _ _ Y (S (0 + length u + length x)) doc n l [] stack 0) as (k' & E2); [auto|exact SP'|].
    exists doc, ((n, l, rev ch ++ []) :: stack), true, k'. split; [|split; [cbn; split; [reflexivity|eauto]|exact SP']].
    eapply steps_seq; [exact E|]. eapply steps_seq; [exact E1|]. change (lit ">" ++ y) with (62%N :: y). cbn [steps].
    rewrite (in_tag_close false _ _ _ _ _ g I), FT. exact E2.
Qed.
Lemma good_inside ps o u : inside ps o u -> good_text u /\ (o <> None -> starts u /\ u <> []) /\ forall y, starts y -> starts (u ++ y).
Proof.
  induction 1 as [b x O|ps o u n l x ch y U (G & S & SY) T Y].
  - split; [eapply good_outer; exact O|]. split; [congruence|]. intros y. apply (starts_outer b x y O).
  - assert (ST : starts x /\ x <> []). { destruct T as (l0 & y0 & w0 & _ & _ & _ & _ & _ & _ & ->). split; [right; reflexivity|discriminate]. }
    split; [|split].
    + repeat apply good_app; [exact G|eapply good_tag; exact T|apply good_check; reflexivity|eapply (proj2 (good_nodes false)); exact Y].
    + intros _. split; [apply SY, starts_more; apply ST|]. intros Q. apply app_eq_nil in Q. destruct Q as [_ Q]. apply app_eq_nil in Q. apply (proj2 ST), Q.
    + intros z _. rewrite <- app_assoc. apply SY. rewrite <- app_assoc. apply starts_more; apply ST.
Qed.

(** The automaton alone. *)
Lemma read_plain x : run false 0 start x <> Outside -> read_text x = run false 0 start x.
Proof.
  intros N. rewrite read_no_declaration; [apply read_body_plain; exact N|]. intros c z -> C. apply N. apply xml_start_outside. exact C.
Qed.
Lemma parse_verdict x code pos : good_text x -> starts x -> ~ In 10%N (firstn pos x) -> pos <= length x -> read_text x = Wrong code pos ->
  parse_text x = Raise (EExpat code 1 pos).
Proof.
  intros G S N L R. rewrite (parse_no_bom x (starts_no_bom x S)). unfold parse_from. destruct (good_no_special _ G) as (A & B). rewrite A, B, starts_no_bom by exact S. cbn [orb].
  rewrite R, line_column_one by exact N. rewrite firstn_length_le by exact L. reflexivity.
Qed.

(** ** The errors *)
Lemma steps_end_part loose n w : qualified n -> Forall blank w -> forall pos doc f stack seen k,
  exists m, steps loose pos (State doc (f :: stack) seen (Between k)) (lit "</" ++ n ++ w) = Some (State doc (f :: stack) seen m)
    /\ forall pos', step loose pos' (State doc (f :: stack) seen m) 62 = close_tag (State doc (f :: stack) seen m) pos n.
Proof.
  intros Q W pos doc f stack seen k. destruct (qualified_chars n Q) as (c & s & -> & C & F).
  change (lit "</" ++ (c :: s) ++ w) with (60%N :: 47%N :: c :: s ++ w).
  assert (E : exists m, steps loose (S (S (S pos))) (State doc (f :: stack) seen (EndTag pos [c])) (s ++ w) = Some (State doc (f :: stack) seen m)
                /\ forall pos', step loose pos' (State doc (f :: stack) seen m) 62 = close_tag (State doc (f :: stack) seen m) pos (c :: s)).
  { destruct w as [|c0 w].
    - exists (EndTag pos ([c] ++ s)). rewrite app_nil_r. split; [apply steps_end_name; [discriminate|assumption]|]. intros pos'. reflexivity.
    - inversion W; subst. exists (EndWait pos ([c] ++ s)). split; [|intros pos'; reflexivity].
      eapply steps_seq; [apply steps_end_name; [discriminate|assumption]|]. cbn [app]. one. tests.
      apply steps_white; [|assumption]. intros pos' c' W'. one. tests. reflexivity. }
  destruct E as (m & E & C2). exists m. split; [|exact C2]. cbn [steps].
  change (step loose pos (State doc (f :: stack) seen (Between k)) 60) with (Go (State doc (f :: stack) seen (Lt pos))). cbv iota.
  change (step loose (S pos) (State doc (f :: stack) seen (Lt pos)) 47) with (Go (State doc (f :: stack) seen (EndTag pos []))). cbv iota.
  replace (step loose (S (S pos)) (State doc (f :: stack) seen (EndTag pos [])) c) with (Go (State doc (f :: stack) seen (EndTag pos [c]))); [exact E|].
  symmetry. one. tests. reflexivity.
Qed.
Lemma run_tag_end pos doc stack seen m g e rest code q : in_tag m g -> e = lit ">" \/ e = lit "/>" ->
  (forall m' b, finish_tag (State doc stack seen m') g b = Bad code q) ->
  run false pos (State doc stack seen m) (e ++ rest) = Wrong code q.
Proof.
  intros I E F. destruct E as [-> | ->].
  - change (lit ">" ++ rest) with (62%N :: rest). cbn [run]. rewrite (in_tag_close false _ _ _ _ _ g I), F. reflexivity.
  - change (lit "/>" ++ rest) with (47%N :: 62%N :: rest). cbn [run]. rewrite (in_tag_slash false _ _ _ _ _ g I). cbn [run].
    change (step false (S pos) (State doc stack seen (Slash g)) 62) with (finish_tag (State doc stack seen (Slash g)) g true). rewrite F. reflexivity.
Qed.
Lemma names_local l : Forall (fun kv => good_name (fst kv)) l -> locals l = [].
Proof.
  induction 1 as [|kv l G F IH]; [reflexivity|]. unfold locals in *. cbn [flat_map]. rewrite IH, split_none by assumption.
  destruct (is_declaration (fst kv)); reflexivity.
Qed.
Lemma run_malformed code pos x : malformed code pos x -> forall rest, run false 0 start (x ++ rest) = Wrong code pos.
Proof.
  intros M rest. destruct M as [ps n u e U D|ps n u n' w U Q NE W|ps o u p m n l y w e U (P & P' & ->) NP ND GN A W E|
                                ps o u n l y w k w1 w2 q v x w' e U N ND GN A K G NE F Q V W' E];
    destruct (steps_inside _ _ _ U) as (doc & stack & seen & k0 & S & PL & SP); rewrite <- ?app_assoc; rewrite (run_steps _ _ _ _ _ _ S).
  - destruct PL as (-> & l & ch & stack' & ->). destruct (undefined_steps e D) as (r & R1 & R2).
    change (lit "&" ++ e ++ lit ";" ++ rest) with ([38%N] ++ e ++ 59%N :: rest).
    rewrite (run_steps false [38%N] _ _ _ (State doc ((n, l, ch) :: stack') true (Ref (0 + length u) RStart))) by reflexivity.
    rewrite (run_steps _ _ _ _ _ _ (steps_ref false e _ _ _ _ _ _ _ R1)). cbn [run]. unfold ModelExpat.step. cbn [s_scan]. rewrite R2. reflexivity.
  - destruct PL as (-> & l & ch & stack' & ->).
    destruct (steps_end_part false n' w Q W (0 + length u) doc (n, l, ch) stack' true k0) as (m & E & C).
    replace (lit "</" ++ n' ++ w ++ lit ">" ++ rest) with ((lit "</" ++ n' ++ w) ++ 62%N :: rest) by (rewrite <- !app_assoc; reflexivity).
    rewrite (run_steps _ _ _ _ _ _ E). cbn [run]. rewrite C. unfold close_tag. cbn [s_stack].
    rewrite str_eqb_false by congruence. reflexivity.
  - set (n := p ++ lit ":" ++ m) in *. assert (QN : qualified n) by (right; exists p, m; split; auto).
    destruct (steps_tag_part false n l y w QN ND A W (0 + length u) doc stack seen k0 (place_room _ _ _ PL)) as (mm & E1 & I).
    replace (lit "<" ++ p ++ lit ":" ++ m ++ y ++ w ++ e ++ rest) with ((lit "<" ++ n ++ y ++ w) ++ e ++ rest) by (unfold n; rewrite <- !app_assoc; reflexivity).
    rewrite (run_steps _ _ _ _ _ _ E1). eapply run_tag_end; [exact I|exact E|]. intros m' b. unfold finish_tag. cbn [g_attrs g_bad g_name g_pos s_stack].
    destruct (attributes_good _ _ _ A) as (O & GA). rewrite O, names_local by assumption. cbn [repeated orb].
    assert (SC : split_colon n = Some (p, m)) by (apply split_some, name_no_colon; assumption).
    unfold prefixed_with_xmlns. rewrite SC. cbn [In] in NP. rewrite str_eqb_false by (intros ->; tauto).
    replace (existsb _ _) with true; [reflexivity|]. symmetry. apply existsb_exists. exists n. split; [left; reflexivity|].
    unfold unbound. rewrite SC. apply negb_true_iff, not_true_iff_false. intros X. apply str_in_spec in X. unfold prefixes in X.
    rewrite declared_spec in X by (eapply good_qualified; exact GA). fold (stack_prefixes stack) in X.
    destruct X as [X|X]; [tauto|]. rewrite in_app_iff in X. rewrite (SP p) in X. rewrite in_app_iff in NP. tauto.
  - apply Forall_app in F. destruct F as [F F2]. apply Forall_app in F2. destruct F2 as [F1 F2].
    assert (QN : qualified n) by (left; exact N).
    destruct (steps_tag_part false n l y [] QN ND A (Forall_nil _) (0 + length u) doc stack seen k0 (place_room _ _ _ PL)) as (mm & E1 & I).
    rewrite app_nil_r in E1. set (g := Tag (0 + length u) n l None) in *.
    replace (lit "<" ++ n ++ y ++ w ++ k ++ w1 ++ lit "=" ++ w2 ++ [q] ++ x ++ [q] ++ w' ++ e ++ rest)
      with ((lit "<" ++ n ++ y) ++ w ++ k ++ (w1 ++ [61%N]) ++ w2 ++ [q] ++ x ++ [q] ++ w' ++ e ++ rest) by (rewrite <- !app_assoc; reflexivity).
    rewrite (run_steps _ _ _ _ _ _ E1).
    erewrite run_steps by (apply steps_in_tag_white; [exact I|exact NE|exact F]).
    set (q0 := 0 + length u + length (lit "<" ++ n ++ y) + length w).
    destruct (steps_whole_name false k (attribute_name (k, v) G) q0 doc stack seen g) as (E2 & OK).
    rewrite (run_steps _ _ _ _ _ _ E2).
    assert (H : has_attr g k = true) by (apply str_in_spec; exact K).
    set (g' := first_error g 8 q0).
    assert (E3 : forall pos, steps false pos (State doc stack seen (AttrName g q0 k)) (w1 ++ [61%N]) = Some (State doc stack seen (AttrQuote g' k))).
    { intros pos. destruct w1 as [|c w1].
      - cbn [app]. one. rewrite next_end by (assumption || (chars; lia)). rewrite H. reflexivity.
      - inversion F1; subst. cbn [app]. one. rewrite next_end by (assumption || (chars; lia)). rewrite H. tests.
        rewrite steps_app, steps_white; [reflexivity| |assumption]. intros; apply stay_eq; assumption. }
    rewrite (run_steps _ _ _ _ _ _ (E3 _)).
    erewrite run_steps by (apply steps_white; [intros; apply stay_quote; assumption|exact F2]).
    assert (E4 : forall pos, steps false pos (State doc stack seen (AttrQuote g' k)) [q] = Some (State doc stack seen (AttrValue g' k q []))).
    { intros pos. one. tests. reflexivity. }
    rewrite (run_steps _ _ _ _ _ _ (E4 _)), (run_steps _ _ _ _ _ _ (steps_value false q v x Q V _ _ _ _ _ _ _)).
    assert (E5 : forall pos, steps false pos (State doc stack seen (AttrValue g' k q ([] ++ v))) [q]
                             = Some (State doc stack seen (AfterValue (with_attrs g' [(k, v)])))).
    { intros pos. one. rewrite N.eqb_refl. reflexivity. }
    rewrite (run_steps _ _ _ _ _ _ (E5 _)).
    assert (E6 : forall pos, exists m', steps false pos (State doc stack seen (AfterValue (with_attrs g' [(k, v)]))) w' = Some (State doc stack seen m')
                              /\ in_tag m' (with_attrs g' [(k, v)])).
    { intros pos. destruct w' as [|c w']; [eexists; split; [reflexivity|right; right; reflexivity]|].
      eexists. split; [apply steps_in_tag_white; [right; right; reflexivity|discriminate|exact W']|right; left; reflexivity]. }
    match goal with |- run false ?p _ (w' ++ _) = _ => destruct (E6 p) as (m' & E7 & I') end.
    rewrite (run_steps _ _ _ _ _ _ E7). eapply run_tag_end; [exact I'|exact E|].
    intros m2 b. unfold finish_tag. cbn [g_attrs with_attrs g_bad g_name g' first_error g].
    destruct (attributes_good _ _ _ A) as (O & GA). rewrite existsb_app, O. cbn [existsb orb]. rewrite (not_odd (k, v) G). cbn [orb].
    assert (GK : good_name k). { rewrite Forall_forall in GN. apply in_map_iff in K. destruct K as (kv & <- & IK). exact (GN _ IK). }
    rewrite names_local by (apply Forall_app; split; [exact GN|constructor; [exact GK|constructor]]). cbn [repeated].
    unfold prefixed_with_xmlns. rewrite split_none by exact N. cbn [orb]. f_equal. unfold q0. rewrite !app_length. lia.
Qed.

Lemma malformed_shape code pos x : malformed code pos x -> good_text x /\ starts x /\ pos <= length x.
Proof.
  intros M. destruct M as [ps n u e U D|ps n u n' w U Q NE W|ps o u p m n l y w e U (P & P' & ->) NP ND GN A W E|
                                ps o u n l y w k w1 w2 q v x w' e U N ND GN A K G NE F Q V W' E];
    destruct (good_inside _ _ _ U) as (GU & S1 & S2).
  - assert (NO : Some n <> None) by discriminate. destruct (S1 NO). split; [|split; [apply starts_more; assumption|rewrite !app_length; lia]].
    repeat apply good_app; try exact GU; try (apply good_check; reflexivity). apply good_name_text, D.
  - assert (NO : Some n <> None) by discriminate. destruct (S1 NO).
    split; [|split; [apply starts_more; assumption|rewrite !app_length; change (length (lit "</")) with 2; lia]].
    repeat apply good_app; try exact GU; try (apply good_check; reflexivity); [apply good_qualified_name; exact Q|apply good_white; exact W].
  - split; [|split; [apply S2; right; reflexivity|rewrite !app_length; lia]].
    repeat apply good_app; try exact GU; try (apply good_check; reflexivity); try (apply good_name_text; assumption);
      [eapply good_attributes; exact A|apply good_white; exact W|destruct E; subst; apply good_check; reflexivity].
  - apply good_white, Forall_app in F. destruct F as [F F2]. apply Forall_app in F2. destruct F2 as [F1 F2].
    split; [|split; [apply S2; right; reflexivity|rewrite !app_length; lia]].
    repeat apply good_app; try assumption; try (apply good_check; reflexivity); try (apply good_quote; assumption);
      [apply good_name_text; exact N|eapply good_attributes; exact A|apply good_qualified_name, G|eapply good_written; exact V|
       apply good_white; exact W'|destruct E; subst; apply good_check; reflexivity].
Qed.
Theorem parser_reports : reports parse_text.
Proof.
  intros code pos x rest M G N. destruct (malformed_shape _ _ _ M) as (GX & SX & L). assert (R := run_malformed _ _ _ M rest).
  apply parse_verdict.
  - apply good_app; assumption.
  - apply starts_more; [exact SX|]. clear -M. destruct M as [? ? u|? ? u|? ? u|? ? u]; destruct u; discriminate.
  - rewrite firstn_app. replace (pos - length x) with 0 by lia. cbn [firstn]. rewrite app_nil_r. intros I. apply N.
    rewrite <- (firstn_skipn pos x). apply in_app_iff. left. exact I.
  - rewrite app_length. lia.
  - rewrite read_plain; [exact R|]. rewrite R. discriminate.
Qed.

(** ** Texts that end too no_late_space *)

(** After the root element. *)
Definition closed (s : state) : Prop :=
  s_stack s = [] /\ s_seen s = true
  /\ match s_scan s with
     | Between _ | Lt _ | Bang _ | BangDash _ | Comment _ _ | CommentDash _ _ | CommentDash2 _ _
     | PiName _ _ | PiClose _ _ | PiWait _ _ | PiData _ _ _ | PiQuestion _ _ _ | Loose _ _ => True
     | _ => False
     end.
Ltac arms := repeat match goal with
  | H : context [if ?b then _ else _] |- _ => destruct b
  | H : (match ?x with _ => _ end) = Go _ |- _ => destruct x
  | H : Go _ = Go _ |- _ => injection H as <-
  | H : Bad _ _ = Go _ |- _ => discriminate H
  | H : Out = Go _ |- _ => discriminate H
  end.
Lemma closed_step loose pos s c s' : closed s -> step loose pos s c = Go s' -> closed s'.
Proof.
  intros (E1 & E2 & E3) H. destruct s as [doc stack seen m]. cbn [s_stack s_seen s_scan] in *. subst stack seen.
  unfold step in H. cbn [s_scan s_stack s_seen negb andb] in H. destruct m; try contradiction; rewrite ?andb_false_r in H; unfold loose_start, loose_step, goto, finish_pi in H; arms;
    repeat split; exact I.
Qed.
Lemma closed_steps loose x : forall pos s s', closed s -> steps loose pos s x = Some s' -> closed s'.
Proof.
  induction x as [|c x IH]; intros pos s s' C H; cbn [steps] in H; [injection H as <-; exact C|].
  destruct (step loose pos s c) as [s1| |] eqn:E; try discriminate. eapply IH; [eapply closed_step; eassumption|exact H].
Qed.

Lemma finish_open pos s : ~ closed s -> exists code p, code <> 4 /\ finish pos s = Wrong code p.
Proof.
  intros C. destruct s as [doc stack seen m]. unfold finish. cbn [s_scan s_stack s_seen s_doc].
  destruct m; try (eexists; eexists; split; [|reflexivity]; discriminate).
  2: eexists; eexists; split; [|reflexivity]; unfold loose_code; cbn [s_seen]; destruct seen; discriminate.
  destruct stack; [|eexists; eexists; split; [|reflexivity]; discriminate].
  destruct seen; [|eexists; eexists; split; [|reflexivity]; discriminate].
  exfalso. apply C. repeat split.
Qed.
(** Before the last character of the root element. *)
Lemma root_last n l ch x : node_text false [] (DElem n l ch) x -> forall pos doc,
  exists y s, x = y ++ [62%N] /\ steps false pos (State doc [] false (Between 0)) y = Some s /\ ~ closed s.
Proof.
  intros T pos doc. assert (SP : same_prefixes [] []) by (intros p; reflexivity). assert (R : @nil frame = [] -> false = false) by auto.
  inversion T as [| | | |ps n0 l0 x0 TT|ps n0 l0 x0 ch0 y w TT Y W]; subst; destruct (steps_tag false [] n l x0 TT pos doc [] false 0 R SP) as (m & g & E & I & FT).
  - exists (x0 ++ [47%N]), (State doc [] false (Slash g)). split; [rewrite <- app_assoc; reflexivity|]. split.
    + eapply steps_seq; [exact E|]. cbn [steps]. rewrite (in_tag_slash false _ _ _ _ _ g I). reflexivity.
    + intros (_ & C & _). discriminate.
  - assert (SP' : same_prefixes [(n, l, [])] (declared l ++ [])) by (apply same_deeper; [apply (tag_qualified false [] n l x0 TT)|exact SP]).
    destruct (proj2 (nodes_are_read false) _ _ _ Y (S (pos + length x0)) doc n l [] [] 0) as (k' & E2); [auto|exact SP'|].
    assert (Q : qualified n) by (destruct TT as (? & ? & ? & Q & _); exact Q).
    destruct (steps_end_part false n w Q W (S (pos + length x0) + length y) doc (n, l, rev ch ++ []) [] true k') as (m' & E3 & _).
    exists (x0 ++ lit ">" ++ y ++ lit "</" ++ n ++ w). eexists. split; [rewrite <- !app_assoc; reflexivity|]. split.
    + eapply steps_seq; [exact E|]. change (lit ">" ++ y ++ lit "</" ++ n ++ w) with (62%N :: y ++ lit "</" ++ n ++ w). cbn [steps].
      rewrite (in_tag_close false _ _ _ _ _ g I), FT. eapply steps_seq; [exact E2|exact E3].
    + intros (C & _). discriminate.
Qed.
Lemma snoc_prefix {A} (y : list A) c x t : y ++ [c] = x ++ t -> t <> [] -> exists t', y = x ++ t'.
Proof.
  intros E N. destruct (exists_last N) as (t' & c' & ->). rewrite app_assoc in E. apply app_inj_tail in E. exists t'. apply E.
Qed.
Theorem parser_reports_end : reports_end parse_text.
Proof.
  intros x (b & x1 & n & l & ch & x2 & t & O & T & E & NE) NL.
  destruct (root_last n l ch x2 T (0 + length x1) (rev b ++ [])) as (y & s & -> & S & C).
  assert (G : good_text (x1 ++ y ++ [62%N])) by (apply good_app; [eapply good_outer; exact O|eapply (proj1 (good_nodes false)); exact T]).
  assert (S1 : starts (x1 ++ y ++ [62%N])).
  { eapply starts_outer; [exact O|]. apply (starts_node _ _ _ _ T eq_refl). }
  rewrite E in G, S1. apply Forall_app in G. destruct G as [G _].
  assert (SX : starts x) by (destruct x; [exact I|exact S1]).
  rewrite app_assoc in E. destruct (snoc_prefix _ _ _ _ E NE) as (t' & E').
  assert (ST : steps false 0 start (x ++ t') = Some s) by (rewrite <- E'; eapply steps_seq; [apply (steps_outer false b x1 O)|exact S]).
  rewrite steps_app in ST. destruct (steps false 0 start x) as [s'|] eqn:ES; [|discriminate].
  assert (C' : ~ closed s') by (intros C'; apply C; eapply closed_steps; [exact C'|exact ST]).
  destruct (finish_open (0 + length x) s' C') as (code & p & NC & F).
  assert (R : run false 0 start x = Wrong code p).
  { rewrite <- (app_nil_r x), (run_steps _ _ _ _ _ _ ES). exact F. }
  exists code, (length (firstn p x)). split; [exact NC|].
  rewrite (parse_no_bom x (starts_no_bom x SX)). unfold parse_from. destruct (good_no_special _ G) as (A & B). rewrite A, B, starts_no_bom by exact SX. cbn [orb].
  rewrite read_plain by (rewrite R; discriminate). rewrite R, line_column_one; [reflexivity|].
  intros I. apply NL. rewrite <- (firstn_skipn p x). apply in_app_iff. left. exact I.
Qed.

(** ** No document without [>] *)
Definition unclosed (s : state) : Prop := s_stack s <> [] \/ s_seen s = false.
Lemma unclosed_step loose pos s c s' : c <> 62%N -> unclosed s -> step loose pos s c = Go s' -> unclosed s'.
Proof.
  intros N U H. apply N.eqb_neq in N. destruct s as [doc stack seen m]. unfold unclosed in *. cbn [s_stack s_seen] in U.
  assert (A : forall v m', s_stack (add_char (State doc stack seen m') v) <> [] \/ s_seen (add_char (State doc stack seen m') v) = false).
  { intros v m'. destruct stack as [|[[n l] [|[]]] stack]; cbn; destruct U; auto; left; discriminate. }
  unfold step in H. cbn [s_scan s_stack s_seen] in H. destruct m; unfold loose_start, loose_step, goto, with_scan in H; rewrite ?N in H; cbn [andb] in H; arms;
    cbn [s_stack s_seen s_doc]; auto.
Qed.
Lemma run_unclosed loose x : ~ In 62%N x -> forall pos s d, unclosed s -> run loose pos s x <> Read d.
Proof.
  induction x as [|c x IH]; intros N pos s d U; cbn [run].
  - destruct s as [doc stack seen m]. unfold finish. cbn [s_scan s_stack s_seen s_doc]. destruct m; try discriminate.
    destruct stack; [|discriminate]. destruct seen; [|discriminate]. destruct U as [U|U]; [contradiction|discriminate].
  - destruct (step loose pos s c) as [s'| |] eqn:E; try discriminate. apply IH; [intros I; apply N; right; exact I|].
    eapply unclosed_step; [|exact U|exact E]. intros ->. apply N. left. reflexivity.
Qed.
Lemma skip_white_incl x : incl (skip_white x) x.
Proof. induction x as [|c x IH]; [apply incl_refl|]. cbn [skip_white]. destruct (is_white c); [apply incl_tl, IH|apply incl_refl]. Qed.
Lemma some_white_incl x y : some_white x = Some y -> incl y x.
Proof. destruct x as [|c x]; [discriminate|]. cbn. destruct (is_white c); [|discriminate]. intros [= <-]. apply incl_tl, skip_white_incl. Qed.
Lemma word_incl w x y : ModelExpat.word w x = Some y -> incl y x /\ incl w x.
Proof. intros E. apply word_some in E. subst x. split; [apply incl_appr|apply incl_appl]; apply incl_refl. Qed.
Lemma until_incl q ok x : forall v y, until q ok x = Some (v, y) -> incl y x.
Proof.
  induction x as [|c x IH]; intros v y; cbn [until]; [discriminate|]. destruct (c =? q)%N; [intros [= <- <-]; apply incl_tl, incl_refl|].
  destruct (ok c); [|discriminate]. destruct (until q ok x) as [[v' r]|]; [|discriminate]. intros [= <- <-]. apply incl_tl. eapply IH. reflexivity.
Qed.
Lemma quoted_incl ok x v y : quoted_text ok x = Some (v, y) -> incl y x.
Proof. destruct x as [|q x]; [discriminate|]. cbn. destruct (quoted q); [|discriminate]. intros E. apply incl_tl. eapply until_incl; exact E. Qed.
Lemma skip_name_incl x : incl (skip_name x) x.
Proof. induction x as [|c x IH]; [apply incl_refl|]. cbn [skip_name]. destruct (name_char c); [apply incl_tl, IH|apply incl_refl]. Qed.
Lemma some_name_incl x y : some_name x = Some y -> incl y x.
Proof. destruct x as [|c x]; [discriminate|]. cbn. destruct (name_start c); [|discriminate]. intros [= <-]. apply incl_tl, skip_name_incl. Qed.
Lemma then_some {A B} (o : option A) (f : A -> option B) b : then_ o f = Some b -> exists a, o = Some a /\ f a = Some b.
Proof. destruct o as [a|]; [|discriminate]. intros H. exists a. auto. Qed.
Lemma setting_incl n x v y : setting n x = Some (v, y) -> incl y x.
Proof.
  unfold setting. intros H. apply then_some in H. destruct H as (x1 & H1 & H). apply then_some in H. destruct H as (x2 & H2 & H).
  apply then_some in H. destruct H as (x3 & H3 & H). apply some_white_incl in H1. apply word_incl in H2. apply word_incl in H3. apply quoted_incl in H.
  destruct H2 as [H2 _], H3 as [H3 _]. assert (A := skip_white_incl x2). assert (B := skip_white_incl x3).
  eapply incl_tran; [exact H|]. eapply incl_tran; [exact B|]. eapply incl_tran; [exact H3|]. eapply incl_tran; [exact A|]. eapply incl_tran; eassumption.
Qed.
Lemma xml_declaration_closes x r : xml_declaration x = Some r -> In 62%N x.
Proof.
  unfold xml_declaration. intros H. apply then_some in H. destruct H as ([v x1] & H1 & H). apply then_some in H. destruct H as (x2 & H2 & H).
  apply then_some in H. destruct H as ([sa x3] & H3 & H). apply then_some in H. destruct H as (x4 & H4 & _). cbn [fst snd] in *.
  apply setting_incl in H1. assert (I2 : incl x2 x1).
  { destruct (setting (lit "encoding") x1) as [[e y]|] eqn:E; [|injection H2 as <-; apply incl_refl]. apply setting_incl in E.
    destruct (match e with [] => false | _ => _ end); [|discriminate]. injection H2 as <-. exact E. }
  assert (I3 : incl x3 x2).
  { destruct (setting (lit "standalone") x2) as [[e y]|] eqn:E; [|injection H3 as _ <-; apply incl_refl]. apply setting_incl in E.
    destruct (str_eqb e (lit "yes")); [injection H3 as _ <-; exact E|]. destruct (str_eqb e (lit "no")); [injection H3 as _ <-; exact E|discriminate]. }
  apply word_incl in H4. destruct H4 as [_ H4]. apply H1, I2, I3, skip_white_incl, H4. right. left. reflexivity.
Qed.
Lemma doctype_closes x r : doctype x = Some r -> In 62%N x.
Proof.
  unfold doctype. intros H. apply then_some in H. destruct H as (x1 & H1 & H). apply then_some in H. destruct H as (x2 & H2 & H).
  apply then_some in H. destruct H as ([e x3] & H3 & H). apply then_some in H. destruct H as (x4 & H4 & _). cbn [fst snd] in *.
  apply some_white_incl in H1. apply some_name_incl in H2. apply word_incl in H4. destruct H4 as [_ H4].
  assert (I3 : incl x3 x2).
  { destruct (some_white x2) as [y|] eqn:E; [|injection H3 as _ <-; apply incl_refl]. apply some_white_incl in E.
    destruct (ModelExpat.word (lit "SYSTEM") y) as [y1|] eqn:E1.
    - apply word_incl in E1. destruct E1 as [E1 _]. apply then_some in H3. destruct H3 as (y2 & E2 & H3). apply some_white_incl in E2.
      apply then_some in H3. destruct H3 as ([v y3] & E3 & H3). apply quoted_incl in E3. injection H3 as _ <-. cbn [snd] in *.
      eapply incl_tran; [exact E3|]. eapply incl_tran; [exact E2|]. eapply incl_tran; [exact E1|exact E].
    - destruct (ModelExpat.word (lit "PUBLIC") y) as [y1|] eqn:E1'; [|injection H3 as _ <-; exact E].
      apply word_incl in E1'. destruct E1' as [E1' _]. apply then_some in H3. destruct H3 as (y2 & E2 & H3). apply some_white_incl in E2.
      apply then_some in H3. destruct H3 as ([v y3] & E3 & H3). apply quoted_incl in E3. cbn [snd] in H3.
      apply then_some in H3. destruct H3 as (y4 & E4 & H3). apply some_white_incl in E4.
      apply then_some in H3. destruct H3 as ([v5 y5] & E5 & H3). apply quoted_incl in E5. injection H3 as _ <-. cbn [snd] in *.
      eapply incl_tran; [exact E5|]. eapply incl_tran; [exact E4|]. eapply incl_tran; [exact E3|]. eapply incl_tran; [exact E2|].
      eapply incl_tran; [exact E1'|exact E]. }
  apply H1, H2, I3, skip_white_incl, H4. left. reflexivity.
Qed.
Lemma find_doctype_incl x : forall pos s y, find_doctype pos s x = Some y -> incl y x.
Proof.
  induction x as [|c x IH]; intros pos s y; cbn [find_doctype]; [discriminate|].
  match goal with |- (if ?b then _ else _) = _ -> _ => destruct b end; [intros [= <-]; apply incl_refl|].
  destruct (step false pos s c) as [s'| |]; try discriminate. intros H. apply incl_tl. eapply IH; exact H.
Qed.
Lemma read_body_marked sa x d : read_body sa x = Read d -> In 62%N x.
Proof.
  intros H. destruct (in_dec N.eq_dec 62%N x) as [I|N]; [exact I|]. exfalso. unfold read_body in H.
  destruct (find_doctype 0 start x) as [y|] eqn:F.
  - apply find_doctype_incl in F. destruct (ModelExpat.word (lit "<!DOCTYPE") y) as [z|] eqn:W; cbn [then_] in H; [|discriminate].
    destruct (doctype z) as [[e r]|] eqn:D; [|discriminate]. apply doctype_closes in D. apply word_incl in W. apply N, F, (proj1 W), D.
  - revert H. apply run_unclosed; [exact N|right; reflexivity].
Qed.
Lemma read_text_marked x d : read_text x = Read d -> In 62%N x.
Proof.
  unfold read_text. destruct (ModelExpat.word (lit "<?xml") x) as [[|c y]|] eqn:W; try apply read_body_marked.
  destruct (is_white c); [|apply read_body_marked]. destruct (xml_declaration (c :: y)) as [[sa r]|] eqn:X; [|discriminate]. intros _.
  apply word_incl in W. apply (proj1 W). eapply xml_declaration_closes; exact X.
Qed.
Theorem parser_needs_markup : needs_markup parse_text.
Proof.
  assert (F : forall column x, ~ In 62%N x -> exists e, parse_from column x = Raise e).
  2:{ intros [|c x] N; unfold parse_text; [apply F; exact N|]. destruct (c =? 65279)%N; apply F; [intros I; apply N; right; exact I|exact N]. }
  intros column x N. unfold parse_from. destruct (existsb surrogate x); [eauto|]. match goal with |- context [if ?b then _ else _] => destruct b end; [eauto|].
  destruct (read_text x) as [d|code pos|] eqn:E; [|destruct (line_column _ _ _); eauto|eauto].
  apply read_text_marked in E. contradiction.
Qed.

(** ** Text after the root element *)
Theorem parser_reports_junk : reports_junk parse_text.
Proof.
  intros d x c rest D C G NL. assert (GX := good_document d x D). assert (SX := starts_document d x D).
  destruct D as (loose & b & x1 & n & l & ch & x2 & a & x3 & -> & -> & P & T & O2).
  destruct (prolog_reads loose b x1 P) as (x1' & L & O1 & R).
  assert (E0 : run loose 0 start (x1' ++ x2 ++ x3 ++ lit "<" ++ c :: rest) = Wrong 9 (length (x1 ++ x2 ++ x3))).
  { rewrite (run_steps _ _ _ _ _ _ (steps_outer loose b x1' O1 0 [] false)).
    destruct (proj1 (nodes_are_read loose) _ _ _ T (0 + length x1') (rev b ++ []) [] false 0) as (k' & K & E); [exact (fun _ => eq_refl)|intros p; reflexivity|].
    rewrite (run_steps _ _ _ _ _ _ E). rewrite (K eq_refl). unfold add_node; cbn [s_stack s_doc s_seen s_scan orb is_elem_node].
    rewrite (run_steps _ _ _ _ _ _ (steps_outer loose a x3 O2 _ _ true)).
    change (lit "<" ++ c :: rest) with (60%N :: c :: rest). cbn [run].
    match goal with |- context [step loose ?p ?s 60] => change (step loose p s 60) with (goto s (Lt p)) end. unfold goto, with_scan. cbv iota.
    cbn [s_doc s_stack s_seen]. unfold step. cbn [s_scan s_stack s_seen negb andb].
    replace (c =? 33)%N with false by (chars; lia). replace (c =? 63)%N with false by (chars; lia). rewrite andb_false_r.
    replace (name_start c) with true by (chars; lia). rewrite !app_length. f_equal. lia. }
  apply parse_verdict.
  - apply good_app; [exact GX|]. constructor; [vm_compute; intuition discriminate|]. constructor; [chars; lia|exact G].
  - apply starts_more; [exact SX|]. intros Q. apply app_eq_nil in Q. destruct Q as [_ Q]. apply app_eq_nil in Q. destruct Q as [Q _].
    apply (proj2 (starts_node _ _ _ _ T eq_refl) Q).
  - rewrite firstn_app, firstn_all, Nat.sub_diag. cbn [firstn]. rewrite app_nil_r. exact NL.
  - rewrite !app_length. lia.
  - rewrite <- !app_assoc. rewrite R; rewrite E0; [reflexivity|discriminate].
Qed.

(** ** A reference put into a document *)
Lemma written_app loose raw d1 x1 : written loose raw d1 x1 -> forall d2 x2, written loose raw d2 x2 -> written loose raw (d1 ++ d2) (x1 ++ x2).
Proof.
  induction 1 as [|c d x G R W IH|c n d x R G W IH|n d x L U W IH]; intros d2 x2 W2; [exact W2| | |]; rewrite <- ?app_assoc; cbn [app].
  - apply written_raw; auto.
  - apply written_ref; auto.
  - apply written_skip; auto.
Qed.
Lemma occurs_split w a c b : ~ In c w -> occurs w (a ++ c :: b) -> occurs w a \/ occurs w b.
Proof.
  intros N (p & q & E). revert p E. induction a as [|x a IH]; intros p E; cbn [app] in E.
  - destruct p as [|y p]; [|injection E as -> E; right; exists p, q; exact E].
    destruct w as [|y w]; [right; exists [], b; reflexivity|]. injection E as -> E. exfalso. apply N. left. reflexivity.
  - destruct p as [|y p].
    + assert (L : forall w', ~ In c w' -> forall a', a' ++ c :: b = w' ++ q -> exists q', a' = w' ++ q').
      { clear. intros w' N a'. revert w' N. induction a' as [|x a' IH]; intros [|y w'] N E; try (eexists; reflexivity).
        - injection E as -> _. exfalso. apply N. left. reflexivity.
        - injection E as -> E. destruct (IH w') with (2 := E) as (q' & ->); [intros I; apply N; right; exact I|]. exists q'. reflexivity. }
      destruct (L w N (x :: a) E) as (q' & E'). left. exists [], q'. exact E'.
    + injection E as -> E. destruct (IH p E) as [(p' & q' & ->)|O]; [left; exists (y :: p'), q'; reflexivity|right; exact O].
Qed.
Lemma occurs_left w a b : occurs w a -> occurs w (a ++ b).
Proof. intros (p & q & ->). exists p, (q ++ b). rewrite <- !app_assoc. reflexivity. Qed.
Lemma occurs_right w a b : occurs w b -> occurs w (a ++ b).
Proof. intros (p & q & ->). exists (a ++ p), q. rewrite <- !app_assoc. reflexivity. Qed.
Lemma no_close_ref x1 e x2 : good_name e -> ~ occurs (lit "]]>") (x1 ++ x2) -> ~ occurs (lit "]]>") (x1 ++ (lit "&" ++ e ++ lit ";") ++ x2).
Proof.
  intros G N O. replace (x1 ++ (lit "&" ++ e ++ lit ";") ++ x2) with (x1 ++ 38%N :: e ++ 59%N :: x2) in O by (rewrite <- !app_assoc; reflexivity).
  apply occurs_split in O; [|vm_compute; intuition discriminate]. destruct O as [O|O]; [apply N, occurs_left, O|].
  apply occurs_split in O; [|vm_compute; intuition discriminate]. destruct O as [O|O]; [|apply N, occurs_right, O].
  destruct O as (p & q & ->). apply name_not_special in G. apply (proj2 (proj2 G)). apply in_app_iff. right. apply in_app_iff. left. vm_compute. auto.
Qed.
Definition filler (loose : bool) (r : str) : Prop := r = [] \/ loose = true /\ exists e, undefined e /\ r = lit "&" ++ e ++ lit ";".
Lemma filler_written loose raw r : filler loose r -> written loose raw [] r.
Proof.
  intros [->|(L & e & U & ->)]; [constructor|]. rewrite <- (app_nil_r (lit "&" ++ e ++ lit ";")), <- !app_assoc. apply written_skip; auto. constructor.
Qed.
Scheme slot_node_mut := Minimality for slot_node Sort Prop
  with slot_nodes_mut := Minimality for slot_nodes Sort Prop.
Combined Scheme slot_ind from slot_node_mut, slot_nodes_mut.
Lemma slot_fill loose r : filler loose r ->
  (forall ps n u v, slot_node loose ps n u v -> node_text loose ps n (u ++ r ++ v))
  /\ (forall ps l u v, slot_nodes loose ps l u v -> nodes_text loose ps l (u ++ r ++ v)).
Proof.
  intros F. apply slot_ind.
  - intros ps n l x ch u v w T _ IH W.
    replace ((x ++ lit ">" ++ u) ++ r ++ v ++ lit "</" ++ n ++ w ++ lit ">") with (x ++ lit ">" ++ (u ++ r ++ v) ++ lit "</" ++ n ++ w ++ lit ">")
      by (rewrite <- !app_assoc; reflexivity).
    apply element_written; assumption.
  - intros ps l v Y. cbn [app]. apply nodes_skip; [apply filler_written; exact F|exact Y].
  - intros ps d1 d2 x1 x2 l y NE W1 W2 NO Y TN. rewrite !app_assoc, <- app_assoc, <- (app_assoc x1), app_assoc.
    rewrite <- !app_assoc. replace (x1 ++ r ++ x2 ++ y) with ((x1 ++ r ++ x2) ++ y) by (rewrite <- !app_assoc; reflexivity).
    apply nodes_more; [|exact Y|exact TN]. apply text_written; [exact NE| |].
    + apply written_app; [exact W1|]. rewrite <- (app_nil_l d2). apply written_app; [apply filler_written; exact F|exact W2].
    + destruct F as [->|(L & e & U & ->)]; [exact NO|]. apply no_close_ref; [apply U|exact NO].
  - intros ps n u v l y SN IH Y. replace (u ++ r ++ v ++ y) with ((u ++ r ++ v) ++ y) by (rewrite <- !app_assoc; reflexivity).
    apply nodes_more; [exact IH|exact Y|]. inversion SN; reflexivity.
  - intros ps n x l u v T _ IH A. rewrite <- app_assoc. apply nodes_more; assumption.
Qed.
Lemma slot_filled loose d u v r : slot_document loose d u v -> filler loose r -> document_text d (u ++ r ++ v).
Proof.
  intros (b & x1 & m & u2 & v2 & a & x3 & -> & -> & -> & P & SN & O) F. assert (T := proj1 (slot_fill loose r F) _ _ _ _ SN).
  inversion SN; subst. eexists loose, b, x1, _, _, _, _, a, x3. split; [reflexivity|]. split; [|split; [exact P|split; [exact T|exact O]]].
  rewrite <- !app_assoc. reflexivity.
Qed.

(** ** The library on such texts *)
Lemma cut_one_line s : ~ In 10%N s -> cut s = cut_line s.
Proof. intros N. unfold cut. rewrite split_on_line by exact N. reflexivity. Qed.
(** What one step of generic recovery leaves. *)
Lemma cut_cases s : ~ In 10%N s -> cut s = s
  \/ exists a b t, s = a ++ [32%N] ++ b ++ [62%N] ++ t /\ ~ In 62%N t /\ cut s = a ++ [32%N] ++ t.
Proof.
  intros N. rewrite cut_one_line by exact N. unfold cut_line.
  destruct (split_last 62 s) as [[before t]|] eqn:E1; [|left; reflexivity]. apply split_last_some in E1. destruct E1 as [-> NT].
  destruct (split_last 32 before) as [[a b]|] eqn:E2; [|left; reflexivity]. apply split_last_some in E2. destruct E2 as [-> NB].
  destruct (existsb (N.eqb 60) a); [|left; reflexivity]. right. exists a, b, t. split; [rewrite <- app_assoc; reflexivity|]. split; [exact NT|reflexivity].
Qed.
Lemma prefix_cases {A} (m r a z : list A) : m ++ r = a ++ z -> (exists r1, a = m ++ r1) \/ exists b, m = a ++ b /\ b <> [].
Proof.
  revert a. induction m as [|c m IH]; intros a E; [left; exists a; reflexivity|].
  destruct a as [|c' a]; [right; exists (c :: m); split; [reflexivity|discriminate]|]. injection E as -> E.
  destruct (IH a E) as [(r1 & ->)|(b & -> & NB)]; [left; exists r1; reflexivity|right; exists b; auto].
Qed.
Lemma cut_keeps m r : ~ In 10%N (m ++ r) -> Forall good_char r ->
  (exists r', cut (m ++ r) = m ++ r' /\ Forall good_char r') \/ (~ no_late_space m \/ ~ In 62%N (cut (m ++ r))) /\ In 32%N m.
Proof.
  intros N G. destruct (cut_cases (m ++ r) N) as [E|(a & b & t & E & NT & E')]; [left; exists r; auto|].
  rewrite E'. destruct (prefix_cases _ _ _ _ E) as [(r1 & ->)|(b' & -> & NB)].
  - left. exists (r1 ++ [32%N] ++ t). split; [rewrite <- app_assoc; reflexivity|]. rewrite <- app_assoc in E. apply app_inv_head in E. subst r.
    apply Forall_app in G. destruct G as [G1 G]. apply Forall_app in G. destruct G as [G2 G]. apply Forall_app in G. destruct G as [G3 G].
    apply Forall_app in G. destruct G as [_ G]. repeat (apply Forall_app; split; auto).
  - right. destruct b' as [|c b']; [congruence|]. rewrite <- app_assoc in E. apply app_inv_head in E. injection E as -> E.
    split; [|apply in_app_iff; right; left; reflexivity].
    destruct (in_dec N.eq_dec 62%N a) as [I|NI]; [left; intros EA; apply (EA a b' eq_refl I)|right].
    rewrite !in_app_iff. intros [I|[[I|[]]|I]]; [auto|discriminate I|auto].
Qed.
Lemma no_markup_kept ps k x y : reaches ps k x y -> ~ In 62%N x -> ~ In 62%N y.
Proof. intros R N I. apply N. induction R as [|k x e x' y P F R IH]; auto. apply recovers_subseq in F. eapply subseq_In; [exact F|apply IH; auto; intros N'; apply N; eapply subseq_In; eassumption]. Qed.
Lemma reaches_malformed ps m code pos : reports ps -> malformed code pos m -> code <> 4 -> no_late_space m ->
  forall k x y, reaches ps k x y -> forall r, x = m ++ r -> Forall good_char r -> ~ In 10%N x ->
    (exists r', y = m ++ r' /\ Forall good_char r') \/ ~ In 62%N y /\ In 32%N m.
Proof.
  intros R M NC E. induction 1 as [x|k x e x' y P F S IH]; intros r -> G N; [left; eauto|].
  rewrite (R code pos m r M G) in P by (rewrite in_app_iff in N; tauto). injection P as <-.
  inversion F as [e' H|code' l o NC' |? ? ? ? H|? ? ? ? H]; subst; [exfalso; eapply H; reflexivity| |congruence|congruence].
  destruct (cut_keeps m r N G) as [(r' & C & G')|([NE|NI] & I)]; [|contradiction|].
  - rewrite C in IH. apply (IH r' eq_refl G'). rewrite <- C. intros I. apply N. eapply subseq_In; [apply cut_subseq|exact I].
  - right. split; [|exact I]. eapply no_markup_kept; eassumption.
Qed.
Lemma malformed_code code pos x : malformed code pos x -> code <> 4.
Proof. intros []; discriminate. Qed.
Lemma raises_malformed wc ps m r code pos x h : reports ps -> needs_markup ps -> malformed code pos m -> clean x = m ++ r -> Forall good_char r ->
  no_late_space m -> exists e, mathml_to_latex wc ps x h = (h, Raise e).
Proof.
  intros R NM M C G E. destruct (read_or_rejected wc ps x) as [(d & k & y & K & RE & P)|(e & RJ)]; [exfalso|exists e; apply convert_rejected; exact RJ].
  assert (NL := clean_one_line x).
  destruct (reaches_malformed ps m code pos R M (malformed_code _ _ _ M) E k _ y RE r C G NL) as [(r' & -> & G')|(NI & _)].
  - rewrite (R code pos m r' M G') in P; [discriminate|]. rewrite C in NL. rewrite in_app_iff in NL. tauto.
  - destruct (NM y NI) as (e & P'). congruence.
Qed.
Lemma no_space_early m : ~ In 32%N m -> no_late_space m.
Proof. intros N a b -> _. apply N. apply in_app_iff. right. left. reflexivity. Qed.
Lemma reaches_more ps m code pos : reports ps -> malformed code pos m -> ~ In 32%N m -> forall k r, Forall good_char r -> ~ In 10%N (m ++ r) ->
  exists r', reaches ps k (m ++ r) (m ++ r') /\ Forall good_char r' /\ ~ In 10%N (m ++ r').
Proof.
  intros R M NS. induction k as [|k IH]; intros r G N; [exists r; split; [constructor|auto]|].
  destruct (cut_keeps m r N G) as [(r' & C & G')|(_ & I)]; [|contradiction].
  assert (N' : ~ In 10%N (m ++ r')) by (rewrite <- C; intros I; apply N; eapply subseq_In; [apply cut_subseq|exact I]).
  destruct (IH r' G' N') as (r2 & RE & G2 & N2). exists r2. split; [|auto].
  eapply reaches_S; [apply (R code pos m r M G); rewrite in_app_iff in N; tauto|apply recovers_generic, (malformed_code _ _ _ M)|]. rewrite C. exact RE.
Qed.
Lemma exact_malformed wc ps m r code pos x h : reports ps -> malformed code pos m -> clean x = m ++ r -> Forall good_char r -> ~ In 32%N m ->
  mathml_to_latex wc ps x h = (h, Raise (EExpat code 1 pos)).
Proof.
  intros R M C G NS. apply convert_rejected. left. assert (N := clean_one_line x). rewrite C in N |- *.
  destruct (reaches_more ps m code pos R M NS 4 r G N) as (r' & RE & G' & N').
  exists (m ++ r'). split; [exact RE|]. split; [apply (R code pos m r' M G'); rewrite in_app_iff in N'; tauto|].
  intros (l & o & E & _). injection E as E _ _. apply (malformed_code _ _ _ M). exact E.
Qed.
Lemma cut_settled s : ~ In 10%N s -> no_inner_space s -> cut s = s \/ ~ In 62%N (cut s).
Proof.
  intros N ST. destruct (cut_cases s N) as [E|(a & b & t & E & NT & E')]; [auto|]. right. rewrite E'. specialize (ST a b t E).
  rewrite !in_app_iff. intros [I|[[I|[]]|I]]; [auto|discriminate I|auto].
Qed.
Lemma cut_no_space s : ~ In 10%N s -> ~ In 32%N s -> cut s = s.
Proof.
  intros N NS. destruct (cut_cases s N) as [E|(a & b & t & E & NT & E')]; [exact E|]. exfalso. apply NS. rewrite E. apply in_app_iff. right. left. reflexivity.
Qed.
Lemma stuck_reaches ps s code pos k : ps s = Raise (EExpat code 1 pos) -> code <> 4 -> cut s = s -> reaches ps k s s.
Proof. intros P NC C. induction k as [|k IH]; [constructor|]. eapply reaches_S; [exact P|apply recovers_generic; exact NC|]. rewrite C. exact IH. Qed.
Lemma exact_stuck wc ps x h code pos : ps (clean x) = Raise (EExpat code 1 pos) -> code <> 4 -> cut (clean x) = clean x ->
  mathml_to_latex wc ps x h = (h, Raise (EExpat code 1 pos)).
Proof.
  intros P NC C. apply convert_rejected. left. exists (clean x). split; [eapply stuck_reaches; eassumption|]. split; [exact P|].
  intros (l & o & E & _). injection E as E _ _. auto.
Qed.
Lemma raises_settled wc ps x h code pos : needs_markup ps -> ps (clean x) = Raise (EExpat code 1 pos) -> code <> 4 -> no_inner_space (clean x) ->
  exists e, mathml_to_latex wc ps x h = (h, Raise e).
Proof.
  intros NM P NC ST. destruct (cut_settled _ (clean_one_line x) ST) as [C|NI]; [eexists; apply (exact_stuck wc ps x h code pos); assumption|].
  destruct (read_or_rejected wc ps x) as [(d & k & y & K & RE & PY)|(e & RJ)]; [exfalso|exists e; apply convert_rejected; exact RJ].
  inversion RE as [z|k' z e z' y' PZ F S]; subst; [congruence|]. rewrite P in PZ. injection PZ as <-.
  inversion F as [e' H|code' l o NC' |? ? ? ? H|? ? ? ? H]; subst; [exfalso; eapply H; reflexivity| |congruence|congruence].
  destruct (NM y) as (e & PE); [eapply no_markup_kept; eassumption|congruence].
Qed.
(** Text after the root element. *)
Lemma document_space d x w : document_text d x -> Forall (eq 32%N) w -> document_text d (x ++ w).
Proof.
  intros (loose & b & x1 & n & l & ch & x2 & a & x3 & -> & -> & P & T & O) W. exists loose, b, x1, n, l, ch, x2, a, (x3 ++ w).
  split; [reflexivity|]. split; [rewrite <- !app_assoc; reflexivity|]. split; [exact P|]. split; [exact T|].
  rewrite <- (app_nil_r a). apply outer_app; [exact O|]. apply outer_white. eapply Forall_impl; [|exact W]. intros c <-. vm_compute. auto.
Qed.
Lemma document_tag d x : document_text d x -> In 60%N x.
Proof.
  intros (loose & b & x1 & n & l & ch & x2 & a & x3 & -> & -> & P & T & O). apply in_app_iff. right. apply in_app_iff. left.
  inversion T as [| | | |ps n0 l0 x0 (l1 & y1 & w1 & _ & _ & _ & _ & _ & _ & E)|ps n0 l0 x0 ch0 y w (l1 & y1 & w1 & _ & _ & _ & _ & _ & _ & E) Y W]; subst; left; reflexivity.
Qed.
Lemma littered_tag d k x : littered d k x -> In 60%N x.
Proof. induction 1 as [x D|k x c r L IH C G NS NL]; [eapply document_tag; exact D|apply in_app_iff; left; exact IH]. Qed.
Lemma littered_first d k x : littered d (S k) x -> exists y c r, x = y ++ lit " <" ++ c :: r /\ document_text d y /\ name_first c /\ Forall good_char r.
Proof.
  remember (S k) as j eqn:J. intros L. revert k J. induction L as [x D|k x c r L IH C G NS NL]; intros j J; [discriminate|].
  assert (G1 : Forall good_char (r ++ lit ">")) by (apply Forall_app; split; [exact G|apply good_check; reflexivity]).
  destruct k as [|k].
  - inversion L; subst. exists x, c, (r ++ lit ">"). auto.
  - destruct (IH k eq_refl) as (y & c1 & r1 & -> & D & C1 & R1). exists y, c1, (r1 ++ lit " <" ++ c :: r ++ lit ">"). split; [rewrite <- !app_assoc; reflexivity|].
    split; [exact D|]. split; [exact C1|]. apply Forall_app. split; [exact R1|]. apply Forall_app. split; [apply good_check; reflexivity|].
    constructor; [chars; lia|exact G1].
Qed.
Lemma cut_littered x c r w : ~ In 10%N (x ++ lit " <" ++ c :: r ++ lit ">" ++ w) -> In 60%N x -> name_first c -> ~ In 32%N r -> Forall (eq 32%N) w ->
  cut (x ++ lit " <" ++ c :: r ++ lit ">" ++ w) = x ++ 32%N :: w.
Proof.
  intros N T C NS W. rewrite cut_one_line by exact N. unfold cut_line.
  assert (E1 : split_last 62 (x ++ lit " <" ++ c :: r ++ lit ">" ++ w) = Some (x ++ lit " <" ++ c :: r, w)).
  { apply split_last_some. split; [rewrite <- !app_assoc; reflexivity|]. intros I. rewrite Forall_forall in W. specialize (W _ I). discriminate. }
  assert (E2 : split_last 32 (x ++ lit " <" ++ c :: r) = Some (x, 60%N :: c :: r)).
  { apply split_last_some. split; [reflexivity|]. cbn [In]. intros [I|[I|I]]; [discriminate|chars; lia|auto]. }
  rewrite E1, E2. replace (existsb (N.eqb 60) x) with true; [reflexivity|]. symmetry. apply existsb_exists. exists 60%N. auto.
Qed.
Lemma littered_reaches ps d : SpecXml.reads ps -> reports_junk ps -> forall k x, littered d k x -> forall w, Forall (eq 32%N) w -> ~ In 10%N (x ++ w) ->
  exists y, reaches ps k (x ++ w) y /\ ps y = Ok d.
Proof.
  intros R J k x L. induction L as [x D|k x c r L IH C G NS NL]; intros w W N.
  - exists (x ++ w). split; [constructor|]. apply R. apply document_space; assumption.
  - assert (L1 : littered d (S k) (x ++ lit " <" ++ c :: r ++ lit ">")) by (apply littered_S; assumption).
    destruct (littered_first d k _ L1) as (y & c1 & r1 & E & D & C1 & R1).
    assert (NX : ~ In 10%N (x ++ 32%N :: w)).
    { rewrite !in_app_iff in N. rewrite in_app_iff. cbn [In]. intros [I|[I|I]]; [tauto|discriminate I|tauto]. }
    destruct (IH (32%N :: w)) as (z & RE & P); [constructor; auto|exact NX|]. exists z. split; [|exact P].
    eapply reaches_S.
    + rewrite E in N |- *. replace ((y ++ lit " <" ++ c1 :: r1) ++ w) with ((y ++ [32%N]) ++ lit "<" ++ c1 :: (r1 ++ w)) in N |- * by (rewrite <- !app_assoc; reflexivity).
      apply (J d); [apply document_space; [exact D|repeat constructor]|exact C1| |].
      * apply Forall_app. split; [exact R1|]. eapply Forall_impl; [|exact W]. intros a <-. chars. lia.
      * rewrite in_app_iff in N. tauto.
    + apply recovers_generic. discriminate.
    + replace ((x ++ lit " <" ++ c :: r ++ lit ">") ++ w) with (x ++ lit " <" ++ c :: r ++ lit ">" ++ w) in N |- * by (rewrite <- !app_assoc; cbn [app]; rewrite <- app_assoc; reflexivity).
      rewrite cut_littered; [exact RE|exact N|eapply littered_tag; exact L|exact C|exact NS|exact W].
Qed.
Lemma convert_littered wc ps d k x h : SpecXml.reads ps -> reports_junk ps -> k < 5 -> littered d k (clean x) ->
  snd (mathml_to_latex wc ps x h) = document_latex d.
Proof.
  intros R J K L. apply convert_read_snd. destruct (littered_reaches ps d R J k _ L []) as (y & RE & P); [constructor|rewrite app_nil_r; apply clean_one_line|].
  rewrite app_nil_r in RE. exists k, y. auto.
Qed.
