(** Texts that write a document, through the library. *)
From Coq Require Import String Lia ZifyBool ZifyN Permutation.
From Verif Require Export LemXml LemDoc2 LemEquiv.
Local Open Scope string_scope.
Local Open Scope list_scope.

Lemma convert_text wc ps d x h : reads ps -> document_text d (clean x) -> snd (mathml_to_latex wc ps x h) = document_latex d.
Proof.
  intros R D. apply convert_read_snd. exists 0, (clean x). split; [lia|]. split; [constructor|apply R; exact D].
Qed.
Lemma clean_id x : ~ In 10%N x -> ~ In 13%N x -> ~ occurs (lit "mml:") x -> clean x = x.
Proof.
  intros N1 N2 O. unfold clean. assert (E : no_line_breaks x = x).
  { clear O. induction x as [|c x IH]; [reflexivity|]. unfold no_line_breaks. cbn [filter]. unfold line_break at 1.
    replace ((c =? 10) || (c =? 13))%N with false.
    - cbn [negb]. f_equal. apply IH; intros I; [apply N1|apply N2]; right; exact I.
    - symmetry. apply orb_false_iff. split; apply N.eqb_neq; intros ->; [apply N1|apply N2]; left; reflexivity. }
  rewrite E. apply without_id. exact O.
Qed.
Lemma good_no_return x : good_text x -> ~ In 13%N x.
Proof. intros G I. unfold good_text in G. rewrite Forall_forall in G. specialize (G _ I). chars. lia. Qed.
Lemma no_colon_no_prefix x : ~ In 58%N x -> ~ occurs (lit "mml:") x.
Proof.
  intros N (a & b & ->). apply N. apply in_app_iff. right. apply in_app_iff. left. vm_compute. auto 10.
Qed.

(** ** Striking a word that occurs once *)
Lemma deleting_none here s : (forall a b, s = a ++ b -> here b = 0) -> deleting here 0 s = s.
Proof.
  induction s as [|c s IH]; intros H; [reflexivity|]. cbn [deleting]. rewrite (H [] (c :: s) eq_refl).
  f_equal. apply IH. intros a b E. apply (H (c :: a) b). rewrite E. reflexivity.
Qed.
Lemma deleting_app_none here a s : (forall a1 a2, a = a1 ++ a2 -> a2 <> [] -> here (a2 ++ s) = 0) ->
  deleting here 0 (a ++ s) = a ++ deleting here 0 s.
Proof.
  induction a as [|c a IH]; intros H; [reflexivity|]. cbn [app deleting].
  change (c :: a ++ s) with ((c :: a) ++ s). rewrite (H [] (c :: a) eq_refl) by discriminate.
  cbn [app]. f_equal. apply IH. intros a1 a2 E NE. apply (H (c :: a1) a2); [rewrite E; reflexivity|exact NE].
Qed.
Lemma deleting_skip here m b : deleting here (length m) (m ++ b) = deleting here 0 b.
Proof. induction m as [|c m IH]; [destruct b; reflexivity|exact IH]. Qed.
Lemma after_some p : forall s r, after p s = Some r <-> s = p ++ r.
Proof.
  induction p as [|c p IH]; intros s r; cbn [after app]; [split; congruence|].
  destruct s as [|x s]; [split; discriminate|]. destruct (N.eqb_spec c x) as [->|NE].
  - rewrite IH. split; [intros ->; reflexivity|congruence].
  - split; [discriminate|congruence].
Qed.
Lemma unvalued_none m s : (forall r, s <> m ++ r) -> unvalued m s = 0.
Proof.
  intros N. unfold unvalued. destruct (after m s) as [r|] eqn:E; [apply after_some in E; exfalso; eapply N; exact E|].
  destruct (after (m ++ lit "=") s); reflexivity.
Qed.
Lemma unvalued_here m c r : c <> 61%N -> quote_first (c :: r) = false -> unvalued m (m ++ c :: r) = length m.
Proof.
  intros NE Q. unfold unvalued. replace (after m (m ++ c :: r)) with (Some (c :: r)) by (symmetry; apply after_some; reflexivity).
  destruct (after (m ++ lit "=") (m ++ c :: r)) as [r'|] eqn:E.
  - apply after_some in E. rewrite <- app_assoc in E. apply app_inv_head in E. injection E as E _. congruence.
  - rewrite Q. reflexivity.
Qed.
Lemma strike_once a m c r : m <> [] -> c <> 61%N -> quote_first (c :: r) = false ->
  (forall a' b', a ++ m ++ c :: r = a' ++ m ++ b' -> a' = a) -> strike m (a ++ m ++ c :: r) = a ++ c :: r.
Proof.
  intros NE NC Q U. unfold strike. rewrite deleting_app_none.
  - f_equal. destruct m as [|x m]; [congruence|]. cbn [app deleting].
    change (x :: m ++ c :: r) with ((x :: m) ++ c :: r). rewrite unvalued_here by assumption. cbn [length].
    rewrite deleting_skip. apply deleting_none. intros a' b E. apply unvalued_none. intros s Es.
    assert (A : a ++ (x :: m) ++ a' = a).
    { apply (U _ s). rewrite E, Es. rewrite <- !app_assoc. reflexivity. }
    assert (L : length (a ++ (x :: m) ++ a') = length a) by (rewrite A; reflexivity). rewrite !app_length in L. cbn in L. lia.
  - intros a1 a2 E NE2. apply unvalued_none. intros s Es.
    assert (A : a1 = a).
    { apply (U _ s). rewrite E, <- app_assoc, Es. reflexivity. }
    subst a. assert (L : length (a1 ++ a2) = length a1) by (rewrite <- A; reflexivity). rewrite app_length in L.
    destruct a2; [congruence|cbn in L; lia].
Qed.

(** ** Attributes without a value *)
Lemma name_not_special n : good_name n -> n <> [] /\ ~ In 32%N n /\ ~ In 62%N n.
Proof.
  intros (c & s & -> & C & F). rewrite Forall_forall in F. split; [discriminate|].
  split; (intros [I|I]; [subst; chars; lia|apply F in I; chars; lia]).
Qed.
Lemma bare_cases m rest : unquoted m rest -> Forall good_char (m ++ rest) -> exists m1 m2 c r e r',
  m = m1 ++ m2 /\ m2 ++ rest = c :: r /\ no_value m1 c /\ rest = e :: r' /\ (e = 32%N \/ e = 62%N) /\ m <> [] /\ ~ In 32%N m /\ ~ In 62%N m2.
Proof.
  intros [n rest' G|n rest' G|n c v e rest' G W Q V E] GC.
  - destruct (name_not_special n G) as (A & B & C).
    exists n, [], 62%N, rest', 62%N, rest'. rewrite app_nil_r. repeat split; auto.
    rewrite <- (app_nil_r n). apply no_equals; auto; chars; lia.
  - destruct (name_not_special n G) as (A & B & C).
    exists (n ++ lit "="), [], 62%N, rest', 62%N, rest'. rewrite app_nil_r. repeat split; auto.
    + change (n ++ lit "=") with (n ++ [] ++ lit "=" ++ []). apply no_quote; auto; [constructor|chars; lia|chars; lia|cbn [In]; lia].
    + intros E. apply app_eq_nil in E. destruct E; discriminate.
    + intros I. apply in_app_iff in I. destruct I as [I|[I|[]]]; [auto|discriminate].
  - destruct (name_not_special n G) as (A & B & C). cbn [In] in Q.
    exists (n ++ lit "="), (c :: v), c, (v ++ e :: rest'), e, rest'. repeat split; auto.
    + rewrite <- app_assoc. reflexivity.
    + change (n ++ lit "=") with (n ++ [] ++ lit "=" ++ []). apply no_quote; auto.
      * constructor.
      * rewrite Forall_forall in GC. apply GC. rewrite <- !app_assoc. rewrite !in_app_iff. cbn [app In]. auto.
      * cbn [In]. lia.
    + intros X. apply app_eq_nil in X. destruct X; discriminate.
    + intros I. rewrite !in_app_iff in I. destruct I as [I|[[I|[]]|[I|I]]]; [auto|discriminate| |].
      * subst c. apply W. chars. lia.
      * apply V in I. apply I. left. reflexivity.
    + intros [I|I]; [lia|]. apply V in I. apply I. right. left. reflexivity.
Qed.
Lemma damaged_reaches ps d k x : reads ps -> stops ps -> damaged d k x -> ~ In 10%N x ->
  exists y, reaches ps k x y /\ ps y = Ok d.
Proof.
  intros R S D. induction D as [x D|k u v w m rest G W B GC U D IH]; intros NL.
  - exists x. split; [constructor|apply R; exact D].
  - destruct (bare_cases m rest B GC) as (m1 & m2 & c & r & e & r' & E1 & E2 & NV & E3 & E & NE & N32 & N62).
    assert (ST : strike m (u ++ w ++ lit " " ++ m ++ rest) = u ++ w ++ lit " " ++ rest).
    { replace (u ++ w ++ lit " " ++ m ++ rest) with ((u ++ w ++ lit " ") ++ m ++ e :: r') by (rewrite E3, <- !app_assoc; reflexivity).
      rewrite strike_once; auto.
      - rewrite E3, <- !app_assoc. reflexivity.
      - lia.
      - cbn. destruct E; subst; reflexivity.
      - intros a' b' X. apply (U a' b'). rewrite <- X, E3, <- !app_assoc. reflexivity. }
    destruct IH as (y & Ry & Py).
    { intros I. apply NL. rewrite !in_app_iff in *. intuition. }
    exists y. split; [|exact Py]. econstructor; [| |exact Ry].
    + replace (u ++ w ++ lit " " ++ m ++ rest) with (u ++ (w ++ lit " ") ++ m1 ++ c :: r).
      2: { rewrite <- E2, E1, <- !app_assoc. reflexivity. }
      apply (S d u v (w ++ lit " ") m1 c r); auto.
      * destruct w; discriminate.
      * apply Forall_app. split; [assumption|]. constructor; [right; right; reflexivity|constructor].
      * rewrite <- E2. rewrite E1, <- app_assoc in GC. apply Forall_app in GC. apply GC.
      * intros I. apply NL. rewrite E1. rewrite !in_app_iff in *. intuition.
    + rewrite <- ST. apply recovers_word with (line := u ++ w ++ lit " " ++ m ++ rest).
      * apply line_one. exact NL.
      * exists (u ++ w ++ lit " "), m1, m2, rest. repeat split; auto.
        -- rewrite E1, <- !app_assoc. reflexivity.
        -- rewrite <- !app_assoc. reflexivity.
        -- right. exists (u ++ w). rewrite <- app_assoc. reflexivity.
        -- right. exists e, r'. auto.
      * rewrite ST. intros X. apply (f_equal (@length N)) in X. rewrite !app_length in X. destruct m; [congruence|]. cbn in X. lia.
Qed.
Lemma convert_damaged wc ps d k x h : reads ps -> stops ps -> k < 5 -> damaged d k (clean x) ->
  snd (mathml_to_latex wc ps x h) = document_latex d.
Proof.
  intros R S K D. apply convert_read_snd. destruct (damaged_reaches ps d k (clean x) R S D (clean_one_line x)) as (y & Ry & Py).
  exists k, y. auto.
Qed.

(** ** The printer *)
Definition clean_char (c : N) : Prop := c <> 10%N /\ c <> 58%N.
Lemma escape_written loose (raw : N -> Prop) c : good_char c \/ c = 13%N -> (~ In c [38; 60; 62; 34; 9; 10; 13; 58]%N -> raw c) ->
  forall d x, written loose raw d x -> written loose raw (c :: d) (escape c ++ x).
Proof.
  intros G R d x W. unfold escape. cbn [In] in R.
  repeat match goal with |- context [if (?a =? ?b)%N then _ else _] => destruct (N.eqb_spec a b) as [->|] end.
  - apply (written_ref loose raw 38 (lit "amp")); auto; constructor.
  - apply (written_ref loose raw 60 (lit "lt")); auto; constructor.
  - apply (written_ref loose raw 62 (lit "gt")); auto; constructor.
  - apply (written_ref loose raw 34 (lit "quot")); auto; constructor.
  - apply (written_ref loose raw 9 (lit "#9")); auto. apply (refers_decimal [57%N]); [discriminate|repeat constructor; lia].
  - apply (written_ref loose raw 10 (lit "#10")); auto. apply (refers_decimal [49%N; 48%N]); [discriminate|repeat constructor; lia].
  - apply (written_ref loose raw 13 (lit "#xD")); auto. apply (refers_hex [68%N]); [discriminate|constructor; [lia|constructor]].
  - apply (written_ref loose raw 58 (lit "#58")); auto. apply (refers_decimal [53%N; 56%N]); [discriminate|repeat constructor; lia].
  - apply written_raw; [tauto|apply R; intuition congruence|exact W].
Qed.
Lemma escapes_written loose (raw : N -> Prop) d : Forall (fun c => good_char c \/ c = 13%N) d -> (forall c, ~ In c [38; 60; 62; 34; 9; 10; 13; 58]%N -> raw c) ->
  written loose raw d (flat_map escape d).
Proof.
  intros F R. induction F as [|c d C F IH]; [constructor|]. cbn [flat_map]. apply escape_written; auto.
Qed.
Lemma escape_clean c : Forall clean_char (escape c) /\ ~ In 62%N (escape c).
Proof.
  unfold escape.
  repeat match goal with |- context [if (?a =? ?b)%N then _ else _] => destruct (N.eqb_spec a b) end;
    (split; [repeat constructor; cbn; try congruence; auto|vm_compute; intuition congruence]).
Qed.
Lemma escapes_clean d : Forall clean_char (flat_map escape d) /\ ~ In 62%N (flat_map escape d).
Proof.
  induction d as [|c d [I1 I2]]; [split; [constructor|auto]|]. cbn [flat_map]. destruct (escape_clean c) as [A B].
  split; [apply Forall_app; auto|]. rewrite in_app_iff. tauto.
Qed.
Lemma clean_name n : good_name n -> Forall clean_char n.
Proof.
  intros (c & s & -> & C & F). constructor; [unfold clean_char; chars; lia|]. eapply Forall_impl; [|exact F].
  intros x X. unfold clean_char. chars. lia.
Qed.
Lemma clean_check s : forallb (fun c => negb (c =? 10)%N && negb (c =? 58)%N) s = true -> Forall clean_char s.
Proof.
  intros H. apply Forall_forall. intros c I. rewrite forallb_forall in H. specialize (H c I). unfold clean_char. lia.
Qed.
Lemma clean_data d : good_data d -> Forall clean_char d /\ Forall good_char d.
Proof. intros F. split; (eapply Forall_impl; [|exact F]); cbv beta; unfold clean_char; tauto. Qed.
Lemma print_attributes loose l : Forall (fun kv => good_name (fst kv) /\ good_attribute kv /\ Forall (fun c => good_char c \/ c = 13%N) (snd kv)) l ->
  attributes_text loose l (flat_map print_attribute l) /\ Forall clean_char (flat_map print_attribute l).
Proof.
  induction 1 as [|[k v] l (N & G & V) F [I1 I2]]; [split; constructor|]. cbn [flat_map fst snd] in *. unfold print_attribute at 1 3.
  cbn [fst snd]. split.
  - replace ((lit " " ++ k ++ [61; 34]%N ++ flat_map escape v ++ [34%N]) ++ flat_map print_attribute l)
      with (lit " " ++ k ++ [] ++ lit "=" ++ [] ++ [34%N] ++ flat_map escape v ++ [34%N] ++ flat_map print_attribute l)
      by (rewrite <- !app_assoc; reflexivity).
    apply attributes_more; auto.
    + discriminate.
    + constructor; [right; right; reflexivity|constructor].
    + apply escapes_written; [exact V|]. cbn [In]. intuition.
  - repeat (apply Forall_app; split); auto; try (apply clean_check; reflexivity); [apply clean_name; exact N|apply escapes_clean].
Qed.
Lemma print_nodes loose ps ch : Forall (fun n => printable n -> forall ps, node_text loose ps n (print_node n) /\ Forall clean_char (print_node n)) ch ->
  Forall printable ch -> texts_apart ch -> nodes_text loose ps ch (flat_map print_node ch) /\ Forall clean_char (flat_map print_node ch).
Proof.
  induction ch as [|n ch IH]; intros F P A; [split; constructor|]. inversion F; subst. inversion P; subst. destruct A as [A1 A2].
  destruct (IH ltac:(assumption) ltac:(assumption) A2) as [I1 I2]. destruct (H1 H3 ps) as [J1 J2]. cbn [flat_map].
  split; [constructor; auto|apply Forall_app; auto].
Qed.
Lemma plain_bound ps n l : good_name n -> Forall (fun kv => good_name (fst kv)) l -> names_bound ps n l.
Proof.
  intros N F. assert (X : forall p m, ~ good_name (p ++ lit ":" ++ m)).
  { intros p m G. apply (name_no_colon _ G). rewrite !in_app_iff. right. left. left. reflexivity. }
  rewrite Forall_forall in F. split; [intros p m ->; exfalso; eapply X; exact N|].
  split; [intros p m v I|intros p p' m v v' I]; apply F in I; exfalso; eapply X; exact I.
Qed.
Lemma print_one loose n : printable n -> forall ps, node_text loose ps n (print_node n) /\ Forall clean_char (print_node n).
Proof.
  induction n as [name l ch IH|n NE] using dnode_ind'; [|destruct n as [|d|d|d|t d]; [discriminate| | | |]];
    intros P ps; inversion P; subst; cbn [print_node].
  - destruct (print_nodes loose (declared l ++ ps) ch IH ltac:(assumption) ltac:(assumption)) as [A B].
    destruct (print_attributes loose l ltac:(assumption)) as [A1 A2]. split.
    + replace (lit "<" ++ name ++ flat_map print_attribute l ++ lit ">" ++ flat_map print_node ch ++ lit "</" ++ name ++ lit ">")
        with ((lit "<" ++ name ++ flat_map print_attribute l ++ []) ++ lit ">" ++ flat_map print_node ch ++ lit "</" ++ name ++ [] ++ lit ">")
        by (rewrite <- !app_assoc; reflexivity).
      apply element_written; [|exact A|constructor].
      exists l, (flat_map print_attribute l), []. split; [left; assumption|]. split; [assumption|]. split; [|auto 10].
      apply plain_bound; [assumption|]. eapply Forall_impl; [|eassumption]. cbv beta. tauto.
    + repeat (apply Forall_app; split); auto; try (apply clean_check; reflexivity); apply clean_name; assumption.
  - split; [|apply escapes_clean]. apply text_written; auto.
    + apply escapes_written; [assumption|]. cbn [In]. intuition.
    + intros (a & b & E). apply (proj2 (escapes_clean d)). rewrite E, !in_app_iff. right. left. vm_compute. auto.
  - destruct (clean_data d) as [A B]; [assumption|]. split; [apply cdata_written; auto|].
    repeat (apply Forall_app; split); auto; apply clean_check; reflexivity.
  - destruct (clean_data d) as [A B]; [assumption|]. split; [apply comment_written; auto|].
    repeat (apply Forall_app; split); auto; apply clean_check; reflexivity.
  - destruct (clean_data d) as [A B]; [assumption|]. split.
    + apply pi_written; auto; [constructor; [right; right; reflexivity|constructor]|discriminate].
    + repeat (apply Forall_app; split); auto; try (apply clean_check; reflexivity). apply clean_name; assumption.
Qed.
Lemma print_outer l : Forall printable l -> Forall (fun n => match n with DComment _ | DPI _ _ => True | _ => False end) l ->
  outer_text l (flat_map print_node l) /\ Forall clean_char (flat_map print_node l).
Proof.
  induction l as [|n l IH]; intros P M; [split; repeat constructor|]. inversion P; inversion M; subst. cbn [flat_map].
  destruct (IH ltac:(assumption) ltac:(assumption)) as [I1 I2]. destruct (print_one false n ltac:(assumption) []) as [J1 J2].
  split; [|apply Forall_app; auto]. apply (outer_more []); auto.
Qed.
Lemma plain_prolog b x : outer_text b x -> prolog_text false b x.
Proof.
  intros O. rewrite <- (app_nil_r b), <- (app_nil_r x). rewrite <- (app_nil_l x) at 1. rewrite <- app_assoc.
  apply (prolog_written false false [] b x [] [] []); auto. apply outer_white. constructor.
Qed.
Lemma print_document d : printable_document d -> document_text d (print d) /\ clean (print d) = print d.
Proof.
  intros (b & n & l & ch & a & -> & P & M). rewrite !Forall_app in P. destruct P as (P1 & P2 & P3). inversion P2; subst.
  apply Forall_app in M. destruct M as [M1 M2].
  destruct (print_outer b P1 M1) as [A1 B1]. destruct (print_outer a P3 M2) as [A3 B3].
  destruct (print_one false _ H1 []) as [A2 B2]. unfold print. rewrite !flat_map_app. change (flat_map print_node [DElem n l ch]) with (print_node (DElem n l ch) ++ []).
  rewrite app_nil_r.
  assert (D : document_text (b ++ [DElem n l ch] ++ a) (flat_map print_node b ++ print_node (DElem n l ch) ++ flat_map print_node a)).
  { exists false, b, (flat_map print_node b), n, l, ch, (print_node (DElem n l ch)), a, (flat_map print_node a). auto using plain_prolog. }
  split; [exact D|].
  assert (C : Forall clean_char (flat_map print_node b ++ print_node (DElem n l ch) ++ flat_map print_node a)).
  { rewrite !Forall_app. auto. }
  rewrite Forall_forall in C. apply clean_id.
  - intros I. destruct (C _ I). auto.
  - apply good_no_return. eapply good_document. exact D.
  - apply no_colon_no_prefix. intros I. destruct (C _ I). auto.
Qed.

(** ** Checks for concrete texts *)
Definition name_b (n : str) : bool := match n with [] => false | c :: s => name_start c && forallb name_char s end.
Lemma name_check n : match n with [] => false | c :: s => name_start c && forallb name_char s end = true -> good_name n.
Proof.
  destruct n as [|c s]; [discriminate|]. intros H. apply andb_true_iff in H. destruct H as [H1 H2]. exists c, s.
  split; [reflexivity|]. split; [chars; lia|]. apply Forall_forall. intros x I. rewrite forallb_forall in H2. specialize (H2 x I). chars. lia.
Qed.
Lemma plain_tag loose ps n : good_name n -> tag_text loose ps n [] (lit "<" ++ n).
Proof.
  intros G. exists [], [], []. split; [left; exact G|]. split; [constructor|]. split; [apply plain_bound; [exact G|constructor]|].
  repeat split; try constructor. rewrite !app_nil_r. reflexivity.
Qed.
(** Prefixes that are declared. *)
Lemma split_one n p m : qualified n -> n = p ++ lit ":" ++ m -> split_colon n = Some (p, m).
Proof.
  intros Q ->. apply split_some. intros I. destruct Q as [G|(p' & m' & G & G' & E)].
  - apply (name_no_colon _ G). apply in_app_iff. left. exact I.
  - apply in_split in I. destruct I as (p1 & p2 & ->). rewrite <- app_assoc in E. cbn [app] in E.
    apply name_no_colon in G. apply name_no_colon in G'. change (lit ":" ++ m') with (58%N :: m') in E.
    revert p1 E G. clear -G'. induction p' as [|c p' IH]; intros p1 E G.
    + destruct p1 as [|d p1]; cbn [app] in E; injection E; intros; subst.
      * apply G'. rewrite !in_app_iff. right. left. vm_compute. auto.
      * apply G'. apply in_app_iff. right. left. reflexivity.
    + destruct p1 as [|d p1]; cbn [app] in E; injection E; intros; subst; [apply G; left; reflexivity|].
      apply (IH p1); [assumption|]. intros J. apply G. right. exact J.
Qed.
Definition bound_b (ps : list str) (n : str) (l : list (str * str)) : bool :=
  let known p := str_in p (lit "xml" :: declared l ++ ps) in
  match split_colon n with Some (p, _) => negb (str_eqb p (lit "xmlns")) && known p | None => true end
  && forallb (fun kv => match split_colon (fst kv) with Some (p, _) => str_eqb p (lit "xmlns") || known p | None => true end) l
  && forallb (fun kv => forallb (fun kv' => match split_colon (fst kv), split_colon (fst kv') with
       | Some (p, m), Some (p', m') => negb (str_eqb m m') || str_eqb p (lit "xmlns") || str_eqb p' (lit "xmlns") || str_eqb p p'
       | _, _ => true end) l) l.
Lemma bound_check ps n l : qualified n -> Forall (fun kv => qualified (fst kv)) l -> bound_b ps n l = true -> names_bound ps n l.
Proof.
  intros Q F H. unfold bound_b in H. rewrite !andb_true_iff in H. destruct H as [[H1 H2] H3]. rewrite Forall_forall in F. rewrite forallb_forall in H2, H3.
  split; [|split].
  - intros p m E. rewrite (split_one n p m Q E) in H1. apply andb_true_iff in H1. destruct H1 as [A B]. apply str_in_spec in B. split; [|exact B].
    intros ->. discriminate.
  - intros p m v I. specialize (H2 _ I). assert (X := split_one _ p m (F _ I) eq_refl). cbn [fst] in H2, X. rewrite X in H2. apply orb_true_iff in H2.
    destruct H2 as [A|A]; [left; apply str_eqb_eq; exact A|right; apply str_in_spec; exact A].
  - intros p p' m v v' I I'. specialize (H3 _ I). rewrite forallb_forall in H3. specialize (H3 _ I'). assert (X := split_one _ p m (F _ I) eq_refl).
    assert (X' := split_one _ p' m (F _ I') eq_refl). cbn [fst] in H3, X, X'. rewrite X, X', str_eqb_refl in H3. cbn [negb orb] in H3.
    rewrite !orb_true_iff, !str_eqb_eq in H3. tauto.
Qed.
Lemma prefixed_check p m : name_b p = true -> name_b m = true -> qualified (p ++ lit ":" ++ m).
Proof. intros P M. right. exists p, m. split; [apply name_check; exact P|]. split; [apply name_check; exact M|reflexivity]. Qed.
Lemma raw_written loose (raw : N -> Prop) d : Forall (fun c => good_char c /\ raw c) d -> written loose raw d d.
Proof. induction 1 as [|c d [A B] F IH]; constructor; assumption. Qed.
Lemma plain_text loose ps d : d <> [] -> forallb (fun c => is_good c && negb (c =? 60)%N && negb (c =? 38)%N && negb (c =? 62)%N) d = true ->
  node_text loose ps (DText d) d.
Proof.
  intros NE H. rewrite forallb_forall in H. apply text_written; [exact NE| |].
  - apply raw_written. apply Forall_forall. intros c I. specialize (H c I). unfold is_good in H. cbn [In]. chars. lia.
  - intros (a & b & E). assert (I : In 62%N d) by (rewrite E, !in_app_iff; right; left; vm_compute; auto).
    specialize (H _ I). discriminate.
Qed.
(** Where a word can occur. *)
Fixpoint places (m s : str) (i : nat) : list nat :=
  (match after m s with Some _ => [i] | None => [] end) ++ match s with [] => [] | _ :: s' => places m s' (S i) end.
Lemma places_in m a b : forall i, In (i + length a) (places m (a ++ m ++ b) i).
Proof.
  induction a as [|c a IH]; intros i.
  - cbn [app length]. assert (E : after m (m ++ b) = Some b) by (apply after_some; reflexivity).
    destruct (m ++ b) as [|x s] eqn:X; cbn [places]; rewrite E; left; lia.
  - cbn [app places length]. apply in_app_iff. right. replace (i + S (length a)) with (S i + length a) by lia. apply IH.
Qed.
Lemma once_check m p s : places m s 0 = [length p] -> firstn (length p) s = p -> forall a b, s = a ++ m ++ b -> a = p.
Proof.
  intros P F a b E. assert (I := places_in m a b 0). rewrite <- E, P in I. destruct I as [I|[]].
  rewrite <- F, E, I. cbn [plus]. rewrite firstn_app, firstn_all, Nat.sub_diag. cbn [firstn]. rewrite app_nil_r. reflexivity.
Qed.
Lemma blank_check s : forallb is_white s = true -> Forall blank s.
Proof. intros H. apply Forall_forall. intros c I. rewrite forallb_forall in H. specialize (H c I). chars. lia. Qed.

(** ** Checking that a document can be printed (enough for examples: no namespace declarations, no processing instructions) *)
Fixpoint apart_b (l : list (str * str)) : bool :=
  match l with [] => true | (k, _) :: l' => negb (existsb (fun kv => str_eqb k (fst kv)) l') && apart_b l' end.
Definition data_b (s : str) : bool := forallb (fun c => xml_char c && negb (c =? 13)%N && negb (c =? 10)%N && negb (c =? 58)%N) s.
Definition absent_b (w s : str) : bool := match places w s 0 with [] => true | _ => false end.
Fixpoint texts_b (l : list dnode) : bool := match l with [] => true | n :: l' => negb (is_text n && text_next l') && texts_b l' end.
Fixpoint printable_b (n : dnode) : bool :=
  match n with
  | DText d => negb (str_eqb d []) && forallb xml_char d
  | DCData d => negb (str_eqb d []) && data_b d && absent_b (lit "]]>") d
  | DComment d => data_b d && absent_b (lit "--") (d ++ lit "-")
  | DPI _ _ => false
  | DElem n l ch => name_b n && apart_b l
      && forallb (fun kv => name_b (fst kv) && forallb xml_char (snd kv) && negb (declares (fst kv))) l
      && forallb printable_b ch && texts_b ch
  end.
Lemma absent_check w s : absent_b w s = true -> ~ occurs w s.
Proof. intros H (a & b & ->). assert (I := places_in w a b 0). unfold absent_b in H. destruct (places w (a ++ w ++ b) 0); [destruct I|discriminate]. Qed.
Lemma data_check s : data_b s = true -> good_data s.
Proof. intros H. apply Forall_forall. intros c I. unfold data_b in H. rewrite forallb_forall in H. specialize (H c I). chars. lia. Qed.
Lemma chars_check s : forallb xml_char s = true -> Forall (fun c => good_char c \/ c = 13%N) s.
Proof. intros H. apply Forall_forall. intros c I. rewrite forallb_forall in H. specialize (H c I). chars. lia. Qed.
Lemma apart_check l : apart_b l = true -> NoDup (map fst l).
Proof.
  induction l as [|[k v] l IH]; [constructor|]. cbn [apart_b map fst]. intros H. apply andb_true_iff in H. destruct H as [H1 H2].
  constructor; [|apply IH; exact H2]. intros I. apply in_map_iff in I. destruct I as (kv & <- & I).
  apply negb_true_iff in H1. rewrite <- not_true_iff_false in H1. apply H1. apply existsb_exists. exists kv. split; [exact I|apply str_eqb_refl].
Qed.
Lemma texts_check l : texts_b l = true -> texts_apart l.
Proof. induction l as [|n l IH]; [constructor|]. cbn. intros H. apply andb_true_iff in H. destruct H as [H1 H2]. apply negb_true_iff in H1. auto. Qed.
Lemma plain_free n : good_name n -> ~ In n [lit "xmlns:xml"; lit "xmlns:xmlns"].
Proof. intros G. apply name_no_colon in G. intros [<-|[<-|[]]]; apply G; vm_compute; auto 10. Qed.
Lemma printable_check n : printable_b n = true -> printable n.
Proof.
  induction n as [name l ch IH|n NE] using dnode_ind'.
  - cbn [printable_b]. rewrite !andb_true_iff. intros [[[[N A] L] C] T]. rewrite forallb_forall in L, C.
    assert (Z : forall kv, In kv l -> declares (fst kv) = false).
    { intros kv I. specialize (L kv I). rewrite !andb_true_iff in L. apply negb_true_iff. apply L. }
    apply printable_element.
    + apply name_check. exact N.
    + apply apart_check. exact A.
    + unfold dom_order. clear -Z. induction l as [|kv l IH]; [reflexivity|]. cbn [filter]. rewrite (Z kv (or_introl eq_refl)). cbn [negb].
      rewrite <- IH at 3 by (intros; apply Z; right; assumption).
      assert (E : filter (fun kv => declares (fst kv)) l = []).
      { clear IH. induction l as [|a l IHl]; [reflexivity|]. cbn [filter]. rewrite (Z a (or_intror (or_introl eq_refl))). apply IHl.
        intros b [I|I]; apply Z; [left|right; right]; assumption. }
      rewrite E. reflexivity.
    + apply Forall_forall. intros kv I. assert (D := Z kv I). specialize (L kv I). rewrite !andb_true_iff in L. destruct L as [[N' X] _].
      assert (G : good_name (fst kv)) by (apply name_check; exact N'). split; [exact G|]. split; [|apply chars_check; exact X].
      split; [left; exact G|]. split; [apply plain_free; exact G|]. rewrite D. discriminate.
    + rewrite Forall_forall in IH |- *. auto.
    + apply texts_check. exact T.
  - destruct n; try discriminate; cbn [printable_b]; rewrite ?andb_true_iff; intros H.
    + destruct H as [H1 H2]. apply printable_text; [|apply chars_check; exact H2]. intros ->. discriminate.
    + destruct H as [[H1 H2] H3]. apply printable_cdata; [|apply data_check; exact H2|apply absent_check; exact H3]. intros ->. discriminate.
    + destruct H as [H1 H2]. apply printable_comment; [apply data_check; exact H1|apply absent_check; exact H2].
Qed.
Lemma document_check n l ch : printable_b (DElem n l ch) = true -> printable_document [DElem n l ch].
Proof.
  intros H. exists [], n, l, ch, []. split; [reflexivity|]. split; [|constructor]. constructor; [apply printable_check; exact H|constructor].
Qed.

(** ** Documents alike *)
Lemma dget_in {A} (d : dict A) k v : NoDup (map fst d) -> In (k, v) d -> dget d k = Some v.
Proof.
  induction d as [|[k' v'] d IH]; intros N I; [destruct I|]. cbn [map fst] in N. inversion N; subst. cbn [dget].
  destruct I as [I|I].
  - injection I as -> ->. rewrite str_eqb_refl. reflexivity.
  - rewrite (proj2 (str_eqb_neq k k')); [apply IH; assumption|]. intros ->. apply H1. apply (in_map fst) in I. exact I.
Qed.
Lemma dget_permutation {A} (d d' : dict A) k : NoDup (map fst d) -> Permutation d d' -> dget d k = dget d' k.
Proof.
  intros N P. assert (N' : NoDup (map fst d')) by (eapply Permutation_NoDup; [apply Permutation_map; exact P|exact N]).
  destruct (dget d k) as [v|] eqn:E.
  - apply dget_In in E. symmetry. apply dget_in; [exact N'|]. eapply Permutation_in; eassumption.
  - destruct (dget d' k) as [v|] eqn:E'; [|reflexivity]. apply dget_In in E'. apply Permutation_sym in P.
    rewrite (dget_in d k v N (Permutation_in _ P E')) in E. discriminate.
Qed.
Lemma attributes_permuted l l' k : NoDup (map fst l) -> Permutation l l' -> dget (attributes_of l) k = dget (attributes_of l') k.
Proof.
  intros N P. assert (N' : NoDup (map fst l')) by (eapply Permutation_NoDup; [apply Permutation_map; exact P|exact N]).
  rewrite !attributes_unique by assumption. apply dget_permutation; [|apply Permutation_map; exact P].
  rewrite map_map. cbn [fst]. exact N.
Qed.
Lemma trees_of_elements l : flat_map tree_of_node (elements l) = flat_map tree_of_node l.
Proof. induction l as [|n l IH]; [reflexivity|]. unfold elements in *. destruct n; cbn [filter is_elem_node flat_map tree_of_node app]; congruence. Qed.
Lemma alike_tree n : forall n', alike n n' -> Forall2 same_looked_at (tree_of_node n) (tree_of_node n').
Proof.
  induction n as [name l ch IH|n NE] using dnode_ind'; intros n' A; inversion A; subst; [|discriminate].
  cbn [tree_of_node]. constructor; [|constructor].
  rewrite H5. constructor; [intros; apply attributes_permuted; assumption|].
  rewrite <- (trees_of_elements ch), <- (trees_of_elements ch').
  assert (F : Forall (fun n => forall n', alike n n' -> Forall2 same_looked_at (tree_of_node n) (tree_of_node n')) (elements ch)).
  { apply Forall_forall. intros m I. rewrite Forall_forall in IH. apply IH. apply filter_In in I. apply I. }
  clear -F H6. induction H6 as [|m m' k k' M K IHK]; [constructor|]. inversion F; subst. cbn [flat_map]. apply Forall2_app; auto.
Qed.
Lemma same_preorder t : forall u, same_looked_at t u -> Forall2 same_looked_at (preorder t) (preorder u).
Proof.
  induction t as [n v ch a IH] using tree_ind'; intros u S. assert (S' := S). inversion S'; subst. cbn [preorder]. constructor; [exact S|].
  clear -IH H5. revert IH. induction H5 as [|m m' k k' M K IHK]; intros IH; [constructor|]. inversion IH; subst. cbn [flat_map].
  apply Forall2_app; auto.
Qed.
Lemma same_named t u n : same_looked_at t u -> named n t = named n u.
Proof. intros []. reflexivity. Qed.
Lemma alike_documents d d' : Forall2 alike (elements d) (elements d') -> Forall2 same_looked_at (math_trees d) (math_trees d').
Proof.
  intros F. unfold math_trees. rewrite <- (trees_of_elements d), <- (trees_of_elements d').
  induction F as [|m m' k k' M K IHK]; [constructor|]. cbn [flat_map]. rewrite !flat_map_app, !filter_app. apply Forall2_app; [|exact IHK].
  assert (P : Forall2 same_looked_at (flat_map preorder (tree_of_node m)) (flat_map preorder (tree_of_node m'))).
  { pose proof (alike_tree m m' M) as T. induction T as [|t u l l' S _ IH]; [constructor|]. cbn [flat_map]. apply Forall2_app; [|exact IH].
    apply same_preorder. exact S. }
  induction P as [|t u l l' S _ IH]; [constructor|]. cbn [filter]. rewrite (same_named t u "math" S). destruct (named "math" u); auto.
Qed.
