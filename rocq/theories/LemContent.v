(** Lemmas for C63 - C65. *)
From Coq Require Import String ZifyBool ZifyN.
From Verif Require Export LemEquiv LemText SpecContent.
Local Open Scope string_scope.
Local Open Scope list_scope.

(** ** C63 *)
Lemma texts_facts t u : same_token_texts t u ->
  named_mprescripts t = named_mprescripts u /\ length (t_children t) = length (t_children u) /\ has_table t = has_table u.
Proof.
  revert u. induction t as [n v ch a IH] using tree_ind'. intros u R. inversion R as [? ? v' ? ch' ? N F]; subst. cbn [t_children has_table].
  split; [reflexivity|split].
  - eapply Forall2_len; eauto.
  - f_equal. clear N R. revert ch' F. induction IH as [|c ch Hc _ IHl]; intros ch' F; inversion F; subst; auto. cbn [existsb].
    f_equal; auto. apply Hc; auto.
Qed.
Lemma node_text inside n v v' kids a : (In n (map lit ["mi"; "mo"; "mn"; "mtext"]) -> v = v') ->
  node inside n v kids a = node inside n v' kids a.
Proof.
  intro H. destruct (in_dec str_dec n (map lit ["mi"; "mo"; "mn"; "mtext"])) as [I|N]; [rewrite (H I); reflexivity|].
  destruct (tag_lookup_spec known_tags n) as [(s & I & E)|[E _]].
  - subst n. revert I. change (tag_lookup known_tags (lit s)) with (tag_of (lit s)). unfold node. intro I.
    repeat (destruct I as [I|I];
      [injection I as <- _;
       match goal with |- context [tag_of ?x] => let r := eval vm_compute in (tag_of x) in change (tag_of x) with r end; cbn iota;
       first [reflexivity | exfalso; apply N; vm_compute; auto]|]); try destruct I.
  - change (tag_lookup known_tags n) with (tag_of n) in E. unfold node. rewrite E. auto.
Qed.
Lemma texts_render t : forall u inside, same_token_texts t u -> render inside t = render inside u.
Proof.
  induction t as [n v ch a IH] using tree_ind'. intros u inside R. inversion R as [? ? v' ? ch' ? N F]; subst. cbn [render].
  transitivity (node inside n v (map (fun c => (c, render (inside || is_table n) c)) ch') a).
  - apply node_weak. apply Forall2_map_both. eapply Forall2_mono; [|exact (Forall2_Forall_l _ _ _ _ IH F)].
    cbn beta. intros x y [H Rxy]. destruct (texts_facts x y Rxy) as (F1 & F2 & F3). unfold weak_look. cbn [fst snd].
    rewrite F2. auto.
  - apply node_text. auto.
Qed.

(** ** C64 *)
Lemma foreign_row n : foreign_name n -> row_tag n.
Proof.
  intros (c & I & N) J. apply in_map_iff in J as (s & <- & J).
  assert (X : forallb (fun s => forallb (fun c => (97 <=? c) && (c <=? 122))%N (lit s)) library_tags = true) by (vm_compute; reflexivity).
  rewrite forallb_forall in X. specialize (X s J). rewrite forallb_forall in X. specialize (X c I). lia.
Qed.
Lemma rows_words ch : Forall (fun u => row_tag (t_name u)) (flat_map preorder ch) -> line_words ch = Ok [].
Proof.
  enough (forall t, Forall (fun u => row_tag (t_name u)) (preorder t) -> exists s, latex_of t = Ok s /\ words s = []) as X.
  { unfold line_words. induction ch as [|c ch IH]; cbn [flat_map]; intro F; [reflexivity|]. apply Forall_app in F as [F1 F2].
    destruct (X c F1) as (s & E & W). specialize (IH F2). cbn [map rseq]. rewrite E. cbn [rbind].
    destruct (rseq (map latex_of ch)) as [ss|]; cbn [rbind] in *; [|discriminate IH]. cbn [flat_map]. rewrite W. exact IH. }
  clear ch. induction t as [n v ch a IH] using tree_ind'. cbn [preorder]. intro F. inversion F as [|? ? R F']; subst. cbn [t_name] in R.
  rewrite (row_latex _ _ _ _ R).
  assert (Y : exists ss, rseq (map latex_of ch) = Ok ss /\ flat_map words ss = []).
  { clear F R. induction IH as [|c ch H _ IHl]; [exists []; auto|]. cbn [flat_map] in F'. apply Forall_app in F' as [F1 F2].
    destruct (H F1) as (s & E & W). destruct (IHl F2) as (ss & E' & W'). exists (s :: ss). cbn [map rseq]. rewrite E, E'. cbn. rewrite W. auto. }
  destruct Y as (ss & -> & W). exists (join (lit " ") ss). split; [reflexivity|]. rewrite words_join_any. exact W.
Qed.
Lemma unknown_math v ch a : Forall (fun u => row_tag (t_name u)) (flat_map preorder ch) -> latex_of (T (lit "math") v ch a) = Ok [].
Proof. intro F. rewrite math_words, (rows_words ch F). reflexivity. Qed.
Lemma no_math d : Forall (fun u => t_name u <> lit "math") (flat_map preorder (flat_map tree_of_node d)) -> math_trees d = [].
Proof.
  unfold math_trees. induction 1 as [|u l H _ IH]; [reflexivity|]. cbn [filter]. unfold named at 1. rewrite (proj2 (str_eqb_neq _ _) H). exact IH.
Qed.

(** ** C65 *)
Definition alnum (c : N) : bool := ((65 <=? c) && (c <=? 90) || (97 <=? c) && (c <=? 122) || (48 <=? c) && (c <=? 57))%N.
Definition place_ok (x : place) : Prop := match x with Fixed _ => True | Renamed c => alnum c = true end.
Lemma rename_alnum s c : renaming s -> alnum (s c) = alnum c.
Proof.
  intro R. destruct (R c) as (L & D & E). unfold letter, digit in *. unfold alnum.
  destruct (alnum c) eqn:A; unfold alnum in A.
  - assert (X : letter (s c) \/ digit (s c)) by (unfold letter, digit; lia). unfold letter, digit in X. lia.
  - rewrite E; lia.
Qed.
Lemma alnum_space c : alnum c = true -> is_space c = false.
Proof. unfold alnum, is_space. lia. Qed.
Lemma rename_space s c : renaming s -> is_space (s c) = is_space c.
Proof.
  intro R. destruct (alnum c) eqn:A.
  - rewrite (alnum_space c A). apply alnum_space. rewrite rename_alnum; auto.
  - destruct (R c) as (_ & _ & ->); auto; unfold letter, digit, alnum in *; lia.
Qed.
Definition shown (s : N -> N) (x : place) : N := match x with Fixed c => c | Renamed c => s c end.
Definition code (x : place) : N := match x with Fixed c | Renamed c => c end.
Lemma shown_space s x : renaming s -> is_space (shown s x) = is_space (code x).
Proof. intro R. destruct x; cbn; auto. apply rename_space. auto. Qed.

Lemma fill_app s p q : fill s (p ++ q) = fill s p ++ fill s q.
Proof. apply map_app. Qed.
Lemma fill_cons s x p : fill s (x :: p) = shown s x :: fill s p.
Proof. reflexivity. Qed.
Definition fx (s : str) : list place := map Fixed s.
Lemma fill_fx s x : fill s (fx x) = x.
Proof. unfold fill, fx. rewrite map_map. apply map_id. Qed.
Lemma fill_length s p : length (fill s p) = length p.
Proof. apply map_length. Qed.
(** The template of a text whose characters are renamed. *)
Definition slots (v : str) : list place := map (fun c => if alnum c then Renamed c else Fixed c) v.
Lemma fill_slots s v : renaming s -> fill s (slots v) = map s v.
Proof.
  intro R. unfold fill, slots. rewrite map_map. apply map_ext. intro c. destruct (alnum c) eqn:A; auto.
  destruct (R c) as (_ & _ & ->); auto; unfold letter, digit, alnum in *; lia.
Qed.
Lemma slots_ok v : Forall place_ok (slots v).
Proof. apply Forall_forall. intros x I. apply in_map_iff in I as (c & <- & _). destruct (alnum c) eqn:A; cbn; auto. Qed.
Lemma fx_ok v : Forall place_ok (fx v).
Proof. apply Forall_forall. intros x I. apply in_map_iff in I as (c & <- & _). cbn. auto. Qed.

(** Joining. *)
Fixpoint pjoin (sep : list place) (l : list (list place)) : list place :=
  match l with [] => [] | [x] => x | x :: l' => x ++ sep ++ pjoin sep l' end.
Lemma fill_join s sep l : fill s (pjoin sep l) = join (fill s sep) (map (fill s) l).
Proof.
  induction l as [|x [|y l] IH]; [reflexivity|reflexivity|].
  change (pjoin sep (x :: y :: l)) with (x ++ sep ++ pjoin sep (y :: l)). rewrite !fill_app, IH. reflexivity.
Qed.
Lemma pjoin_ok sep l : Forall place_ok sep -> Forall (Forall place_ok) l -> Forall place_ok (pjoin sep l).
Proof.
  intros S F. induction F as [|x l H F IH]; [constructor|]. destruct l as [|y l]; [exact H|].
  change (pjoin sep (x :: y :: l)) with (x ++ sep ++ pjoin sep (y :: l)). apply Forall_app; split; auto. apply Forall_app; auto.
Qed.
Fixpoint pfence (seps : str) (l : list (list place)) : list place :=
  match l with
  | [] => []
  | [x] => x
  | x :: l' => x ++ match seps with
                    | [] => Fixed 44%N :: pfence [] l'
                    | [c] => Fixed c :: pfence [c] l'
                    | c :: more => Fixed c :: pfence more l'
                    end
  end.
Lemma fill_fence s seps l : fill s (pfence seps l) = fence_join (map (fun c => [c]) seps) (map (fill s) l).
Proof.
  revert seps. induction l as [|x l IH]; intro seps; [reflexivity|]. destruct l as [|y l]; [destruct seps as [|? [|]]; reflexivity|].
  destruct seps as [|c [|c2 seps]].
  - change (pfence [] (x :: y :: l)) with (x ++ Fixed 44%N :: pfence [] (y :: l)). rewrite fill_app, fill_cons, IH. reflexivity.
  - change (pfence [c] (x :: y :: l)) with (x ++ Fixed c :: pfence [c] (y :: l)). rewrite fill_app, fill_cons, IH. reflexivity.
  - change (pfence (c :: c2 :: seps) (x :: y :: l)) with (x ++ Fixed c :: pfence (c2 :: seps) (y :: l)). rewrite fill_app, fill_cons, IH. reflexivity.
Qed.
Lemma pfence_ok seps l : Forall (Forall place_ok) l -> Forall place_ok (pfence seps l).
Proof.
  intro F. revert seps. induction F as [|x l H F IH]; intro seps; [constructor|]. destruct l as [|y l]; [destruct seps as [|? [|]]; exact H|].
  destruct seps as [|c [|c2 seps]].
  - exact (proj2 (Forall_app _ x (Fixed 44%N :: pfence [] (y :: l))) (conj H (Forall_cons (Fixed _) (Logic.I : place_ok (Fixed _)) (IH [])))).
  - exact (proj2 (Forall_app _ x (Fixed c :: pfence [c] (y :: l))) (conj H (Forall_cons (Fixed _) (Logic.I : place_ok (Fixed _)) (IH [c])))).
  - exact (proj2 (Forall_app _ x (Fixed c :: pfence (c2 :: seps) (y :: l))) (conj H (Forall_cons (Fixed _) (Logic.I : place_ok (Fixed _)) (IH (c2 :: seps))))).
Qed.

(** White space. *)
Fixpoint pfields (p : list place) : list (list place) :=
  match p with
  | [] => [[]]
  | x :: p' => if is_space (code x) then [] :: pfields p' else match pfields p' with f :: fs => (x :: f) :: fs | [] => [[x]] end
  end.
Definition pwords (p : list place) : list (list place) := filter (fun w => match w with [] => false | _ => true end) (pfields p).
Definition psqueeze (p : list place) : list place := pjoin (fx (lit " ")) (pwords p).
Lemma fill_fields s p : renaming s -> fields (fill s p) = map (fill s) (pfields p).
Proof.
  intro R. induction p as [|x p IH]; [reflexivity|]. rewrite fill_cons. cbn [fields pfields]. rewrite (shown_space s x R), IH. destruct (is_space (code x)); [reflexivity|]. destruct (pfields p); reflexivity.
Qed.
Lemma fill_words s p : renaming s -> words (fill s p) = map (fill s) (pwords p).
Proof.
  intro R. unfold words, pwords. rewrite (fill_fields s p R). induction (pfields p) as [|w l IH]; [reflexivity|].
  cbn [map filter]. destruct w; cbn [fill map truthy]; rewrite IH; reflexivity.
Qed.
Lemma fill_squeeze s p : renaming s -> squeeze (fill s p) = fill s (psqueeze p).
Proof. intro R. unfold squeeze, psqueeze. rewrite fill_join, fill_fx, fill_words; auto. Qed.
Lemma pfields_ok p : Forall place_ok p -> Forall (Forall place_ok) (pfields p).
Proof.
  induction 1 as [|x p H F IH]; cbn [pfields]; [repeat constructor|]. destruct (is_space (code x)); [constructor; auto|].
  inversion IH; subst; repeat (constructor; auto).
Qed.
Lemma psqueeze_ok p : Forall place_ok p -> Forall place_ok (psqueeze p).
Proof.
  intro F. apply pjoin_ok; [apply fx_ok|]. apply Forall_forall. intros w I. apply filter_In in I as [I _].
  pose proof (pfields_ok p F) as G. rewrite Forall_forall in G. auto.
Qed.
Lemma fill_spaces s p : renaming s -> existsb is_space (fill s p) = existsb (fun x => is_space (code x)) p.
Proof.
  intro R. induction p as [|x p IH]; [reflexivity|]. rewrite fill_cons. cbn [existsb]. rewrite (shown_space s x R), IH. reflexivity.
Qed.
Lemma blank_fixed s p : renaming s -> Forall place_ok p -> words (fill s p) = [] -> p = fx (fill s p).
Proof.
  intros R F W. rewrite (fill_words s p R) in W. apply map_eq_nil in W.
  assert (X : forall x, In x p -> is_space (code x) = true).
  { clear F. unfold pwords in W. induction p as [|y p IH]; [intros x []|]. cbn [pfields] in W.
    destruct (is_space (code y)) eqn:S; cbn [filter] in W.
    - intros x [<-|I]; auto.
    - destruct (pfields p); cbn [filter] in W; discriminate W. }
  clear W. induction F as [|x p H F IH]; [reflexivity|]. cbn [fx fill map]. f_equal; [|apply IH; intros y I; apply X; right; auto].
  destruct x as [c|c]; [reflexivity|]. cbn in H. specialize (X (Renamed c) (or_introl eq_refl)). cbn in X. rewrite (alnum_space c H) in X. discriminate X.
Qed.

(** Accents: if a template can show an accent command, it holds no renamed character. *)
Definition accents : list str := map lit ["\hat"; "\bar"; "\underbrace"; "\overbrace"].
Definition settled (p : list place) : Prop :=
  forall s w, renaming s -> In w accents -> words (fill s p) = [w] -> p = fx (fill s p).
Definition accent_char (c : N) : bool := existsb (N.eqb c) (lit "\hatbrundecov").
Lemma words_char s c : In c s -> is_space c = false -> exists w, In w (words s) /\ In c w.
Proof.
  enough (In c s -> is_space c = false -> exists w, In w (fields s) /\ In c w) as X.
  { intros I N. destruct (X I N) as (w & J & K). exists w. split; auto. apply filter_In. split; auto. destruct w; [destruct K|reflexivity]. }
  induction s as [|d s IH]; [intros []|]. intros I N. cbn [fields]. destruct (is_space d) eqn:S.
  - destruct I as [->|I]; [congruence|]. destruct (IH I N) as (w & J & K). exists w. split; [right|]; auto.
  - destruct (fields_cons s) as (f & fs & E). rewrite E in *. destruct I as [->|I].
    + exists (c :: f). split; left; reflexivity.
    + destruct (IH I N) as (w & [<-|J] & K); [exists (d :: f); split; [left|right]; auto|exists w; split; [right|]; auto].
Qed.
Lemma accents_chars w c : In w accents -> In c w -> accent_char c = true.
Proof.
  assert (X : forallb (forallb accent_char) accents = true) by (vm_compute; reflexivity).
  intros I J. rewrite forallb_forall in X. specialize (X w I). rewrite forallb_forall in X. auto.
Qed.
Lemma settled_char c p : In (Fixed c) p -> is_space c = false -> accent_char c = false -> settled p.
Proof.
  intros I S A s w R J E. exfalso.
  destruct (words_char (fill s p) c) as (x & Ix & K); auto.
  - apply in_map_iff. exists (Fixed c). auto.
  - rewrite E in Ix. destruct Ix as [<-|[]]. rewrite (accents_chars w c J K) in A. discriminate A.
Qed.
Lemma settled_fx x : settled (fx x).
Proof. intros s w _ _ _. rewrite fill_fx. reflexivity. Qed.
Lemma one_word {A} (f : A -> list str) (l : list A) w : flat_map f l = [w] ->
  Forall (fun x => f x = [] \/ f x = [w]) l.
Proof.
  induction l as [|x l IH]; [discriminate|]. cbn [flat_map]. intro E. destruct (f x) as [|y r] eqn:X.
  - constructor; auto.
  - cbn in E. injection E as -> E. apply app_eq_nil in E as [-> E]. constructor; [rewrite X; auto|].
    apply Forall_forall. intros z I. left. destruct (f z) eqn:Z; auto. exfalso. clear IH X.
    induction l as [|a l IH]; [destruct I|]. cbn [flat_map] in E. apply app_eq_nil in E as [E1 E2]. destruct I as [->|I]; [congruence|auto].
Qed.
Lemma settled_join ps : Forall (fun p => Forall place_ok p /\ settled p) ps -> settled (pjoin (fx (lit " ")) ps).
Proof.
  intros F s w R J E. rewrite fill_join, fill_fx in *. rewrite words_join_any in E.
  assert (X : Forall (fun x => words x = [] \/ words x = [w]) (map (fill s) ps)) by (apply one_word; exact E).
  clear E. apply Forall_map in X.
  assert (Y : Forall (fun p => p = fx (fill s p)) ps).
  { apply Forall_forall. intros p I. rewrite Forall_forall in F, X. destruct (F p I) as [O S]. destruct (X p I) as [W|W].
    - apply blank_fixed; auto.
    - apply (S s w); auto. }
  clear F X. induction Y as [|p ps H Y IH]; [reflexivity|]. destruct ps as [|q ps]; [exact H|].
  change (pjoin (fx (lit " ")) (p :: q :: ps)) with (p ++ fx (lit " ") ++ pjoin (fx (lit " ")) (q :: ps)). rewrite H at 1. rewrite IH.
  unfold fx. rewrite <- !map_app. reflexivity.
Qed.
Lemma settled_squeeze p : Forall place_ok p -> settled p -> settled (psqueeze p).
Proof.
  intros O H s w R J E. rewrite <- (fill_squeeze s p R), words_squeeze in E. specialize (H s w R J E). rewrite H.
  assert (X : forall x, psqueeze (fx x) = fx (squeeze x)).
  { intro x. unfold psqueeze, squeeze. 
    assert (Fd : pfields (fx x) = map fx (fields x)).
    { induction x as [|c x IH]; [reflexivity|]. cbn [fx map pfields fields code]. fold (fx x). rewrite IH. destruct (is_space c); [reflexivity|]. destruct (fields x); reflexivity. }
    assert (Wd : pwords (fx x) = map fx (words x)).
    { unfold pwords, words. rewrite Fd. clear Fd. induction (fields x) as [|f l IH]; [reflexivity|]. cbn [map filter]. destruct f; cbn [fx map truthy]; rewrite IH; reflexivity. }
    rewrite Wd. clear Wd Fd. induction (words x) as [|f [|g l] IH]; [reflexivity|reflexivity|].
    change (join (lit " ") (f :: g :: l)) with (f ++ lit " " ++ join (lit " ") (g :: l)).
    change (pjoin (fx (lit " ")) (map fx (f :: g :: l))) with (fx f ++ fx (lit " ") ++ pjoin (fx (lit " ")) (map fx (g :: l))). rewrite IH.
    unfold fx. rewrite <- !map_app. reflexivity. }
  rewrite X, fill_fx. reflexivity.
Qed.

(** *** Tokens *)
(** A text that never looks like one of the keys of the tables. *)
Definition known_keys : list str := flat_map (map fst) mi_tables ++ flat_map (map fst) mo_tables ++ map fst vowels_with_accents ++ map fst special_font_chars.
Definition harmless_keys : list str := [lit " "; lit "T"; lit "m"].
Lemma keys_not_plain : forallb (fun k => match k with [] => true | _ => negb (forallb plain_text_char k) || str_in k harmless_keys end) known_keys = true.
Proof. vm_compute. reflexivity. Qed.
Lemma plain_not_key w : w <> [] -> forallb plain_text_char w = true -> ~ In w harmless_keys -> ~ In w known_keys.
Proof.
  intros N P H I. pose proof keys_not_plain as X. rewrite forallb_forall in X. specialize (X w I). rewrite P in X. destruct w; [congruence|].
  cbn [negb orb] in X. apply str_in_spec in X. auto.
Qed.
Lemma dget_none {A} (d : dict A) w : ~ In w (map fst d) -> dget d w = None.
Proof.
  induction d as [|[k x] d IH]; [reflexivity|]. cbn [map fst dget]. intro N. destruct (str_eqb w k) eqn:E.
  - apply str_eqb_eq in E. subst. exfalso. apply N. left. reflexivity.
  - apply IH. intro I. apply N. right. exact I.
Qed.
Lemma symbol_plain tables w : In tables [mi_tables; mo_tables] -> w <> [] -> w <> lit " " -> forallb plain_text_char w = true -> symbol tables w = w.
Proof.
  intros IT N B P. destruct (in_dec str_dec w harmless_keys) as [I|H].
  { destruct I as [I|[I|[I|[]]]]; subst w; [congruence| |]; (destruct IT as [<-|[<-|[]]]; vm_compute; reflexivity). }
  pose proof (plain_not_key w N P H) as K. unfold known_keys in K. rewrite !in_app_iff in K.
  assert (F : first_entry tables w = None).
  { assert (X : forall d, In d tables -> ~ In w (map fst d)).
    { intros d I J. apply K. destruct IT as [<-|[<-|[]]]; [left|right; left]; apply in_flat_map; eauto. }
    revert X. generalize tables as ts. induction ts as [|d ts IH]; intro X; [reflexivity|]. cbn [first_entry].
    rewrite (dget_none d w); [|apply X; left; reflexivity]. apply IH. intros e I. apply X. right. exact I. }
  unfold symbol. rewrite F. unfold accent_or_font. rewrite !dget_none; auto 6.
Qed.
Lemma symbol_empty tables : In tables [mi_tables; mo_tables] -> symbol tables [] = [].
Proof. intros [<-|[<-|[]]]; vm_compute; reflexivity. Qed.
Lemma plain_squeeze v : forallb plain_text_char v = true -> forallb plain_text_char (squeeze v) = true.
Proof.
  rewrite !forallb_forall. intros H c I. destruct (squeeze_chars v c I) as [->|J]; [reflexivity|auto].
Qed.
Lemma mi_plain v a : forallb plain_text_char v = true ->
  mi_latex v a = in_commands (variant_lookup mi_variants [] (attr a "mathvariant")) (squeeze v).
Proof.
  intro P. unfold mi_latex. f_equal. destruct (squeeze v) as [|c w] eqn:E; [apply symbol_empty; cbn; auto|]. apply symbol_plain; [cbn; auto|discriminate|rewrite <- E; apply squeeze_not_space|].
  rewrite <- E. apply plain_squeeze. exact P.
Qed.
Lemma mo_plain v : forallb plain_text_char v = true -> mo_latex v = squeeze v.
Proof.
  intro P. unfold mo_latex. destruct (squeeze v) as [|c w] eqn:E; [apply symbol_empty; cbn; auto|].
  apply symbol_plain; [cbn; auto|discriminate|rewrite <- E; apply squeeze_not_space|]. rewrite <- E. apply plain_squeeze. exact P.
Qed.
Lemma rename_plain s c : renaming s -> plain_text_char (s c) = plain_text_char c.
Proof.
  intro R. pose proof (rename_alnum s c R) as A. destruct (alnum c) eqn:E.
  - unfold alnum, plain_text_char in *. lia.
  - destruct (R c) as (_ & _ & ->); auto; unfold letter, digit, alnum in *; lia.
Qed.
Lemma rename_plain_all s v : renaming s -> forallb plain_text_char (map s v) = forallb plain_text_char v.
Proof. intro R. induction v as [|c v IH]; [reflexivity|]. cbn [map forallb]. rewrite rename_plain, IH; auto. Qed.
Lemma rename_runs s v : renaming s -> text_runs (map s v) = map (fun run : bool * str => (fst run, map s (snd run))) (text_runs v).
Proof.
  intro R. induction v as [|c v IH]; [reflexivity|]. cbn [map text_runs]. rewrite rename_plain, IH by auto.
  destruct (plain_text_char c); [|reflexivity]. destruct (text_runs v) as [|[[|] w] l]; reflexivity.
Qed.
Lemma run_char v c : forall run, In run (text_runs v) -> fst run = false -> In c (snd run) -> plain_text_char c = false.
Proof.
  induction v as [|d v IH]; [intros run []|]. intros run. cbn [text_runs]. destruct (plain_text_char d) eqn:P.
  - destruct (text_runs v) as [|[[|] w] l] eqn:E.
    + intros [<-|[]]; discriminate.
    + intros [<-|I]; [discriminate|]. intros. apply (IH run); auto. right. auto.
    + intros [<-|I]; [discriminate|]. intros. apply (IH run); auto.
  - intros [<-|I]; [|apply IH; auto]. cbn. intros _ [<-|[]]. exact P.
Qed.
(** In commands. *)
Fixpoint pcommands (cmds : list string) (p : list place) : list place :=
  match cmds with [] => p | c :: cmds' => fx (lit c) ++ fx (lit "{") ++ pcommands cmds' p ++ fx (lit "}") end.
Lemma fill_commands s cmds p : fill s (pcommands cmds p) = in_commands cmds (fill s p).
Proof. induction cmds as [|c cmds IH]; [reflexivity|]. cbn [pcommands in_commands]. rewrite !fill_app, !fill_fx, IH. reflexivity. Qed.
Lemma pcommands_ok cmds p : Forall place_ok p -> Forall place_ok (pcommands cmds p).
Proof.
  intro H. induction cmds as [|c cmds IH]; [exact H|]. cbn [pcommands]. repeat (apply Forall_app; split); auto using fx_ok.
Qed.
Lemma brace_settled p : In (Fixed 123%N) p -> settled p.
Proof. intro I. apply (settled_char 123%N); auto. Qed.
Lemma pcommands_brace cmds p : cmds <> [] -> In (Fixed 123%N) (pcommands cmds p).
Proof. intro N. destruct cmds as [|c cmds]; [congruence|]. cbn [pcommands]. apply in_or_app. right. apply in_or_app. left. left. reflexivity. Qed.
(** No backslash, no accent. *)
Lemma settled_plain p : ~ In (Fixed 92%N) p -> Forall place_ok p -> settled p.
Proof.
  intros N O s w R J E. exfalso.
  assert (B : In 92%N w) by (clear - J; repeat (destruct J as [<-|J]; [left; reflexivity|]); destruct J).
  assert (I : In 92%N (fill s p)) by (apply (words_chars (fill s p) w); [rewrite E; left; reflexivity|exact B]).
  apply in_map_iff in I as ([c|c] & E' & I); [subst; auto|]. rewrite Forall_forall in O. specialize (O _ I). cbn in O.
  rewrite <- (rename_alnum s c R), E' in O. discriminate O.
Qed.
Definition template (p : list place) : Prop := Forall place_ok p /\ settled p.
Lemma slots_plain v : ~ In 92%N v -> template (slots v).
Proof.
  intro N. split; [apply slots_ok|]. apply settled_plain; [|apply slots_ok]. intro I. apply in_map_iff in I as (c & E & I).
  destruct (alnum c); [discriminate|]. injection E as ->. auto.
Qed.
Lemma pwords_in p w x : In w (pwords p) -> In x w -> In x p.
Proof.
  intros I J. apply filter_In in I as [I _]. revert w I J. induction p as [|y p IH]; cbn [pfields]; intros w I J.
  - destruct I as [<-|[]]. destruct J.
  - destruct (is_space (code y)).
    + destruct I as [<-|I]; [destruct J|right; eauto].
    + destruct (pfields p) as [|f fs].
      * destruct I as [<-|[]]. destruct J as [<-|[]]. left. reflexivity.
      * destruct I as [<-|I]; [destruct J as [<-|J]; [left; reflexivity|right; apply (IH f); cbn; auto]|right; apply (IH w); cbn; auto].
Qed.
Lemma template_squeeze p : template p -> template (psqueeze p).
Proof. intros [O S]. split; [apply psqueeze_ok|apply settled_squeeze]; auto. Qed.

Lemma token_template n v a : In (tag_of n) [TagMi; TagMo; TagMn; TagMtext] ->
  exists p, template p /\ forall s, renaming s ->
    let v' := if renamed_text n v then map s v else v in
    match tag_of n with TagMi => mi_latex v' a | TagMo => mo_latex v' | TagMn => mn_latex v' | _ => mtext_latex v' a end = fill s p.
Proof.
  intro Tg.
  assert (C : forall x, (forall s, renaming s -> (if renamed_text n v then map s v else v) = v) ->
    (match tag_of n with TagMi => mi_latex v a | TagMo => mo_latex v | TagMn => mn_latex v | _ => mtext_latex v a end) = x ->
    exists p, template p /\ forall s, renaming s -> let v' := if renamed_text n v then map s v else v in
    match tag_of n with TagMi => mi_latex v' a | TagMo => mo_latex v' | TagMn => mn_latex v' | _ => mtext_latex v' a end = fill s p).
  { intros x H E. exists (fx x). split; [split; [apply fx_ok|apply settled_fx]|]. intros s R. cbv zeta. rewrite (H s R), E, fill_fx. reflexivity. }
  destruct (renamed_text n v) eqn:RT; [|apply (C _ (fun _ _ => eq_refl) eq_refl)]. clear C.
  unfold renamed_text in RT. destruct (str_eqb n (lit "mi")) eqn:E1; [|destruct (str_eqb n (lit "mo")) eqn:E0; [|destruct (str_eqb n (lit "mn")) eqn:E2]].
  - apply str_eqb_eq in E1. subst n. change (tag_of (lit "mi")) with TagMi.
    set (cmds := variant_lookup mi_variants [] (attr a "mathvariant")).
    assert (Q : template (psqueeze (slots v))).
    { apply template_squeeze, slots_plain. intro I. rewrite forallb_forall in RT. specialize (RT _ I). discriminate RT. }
    exists (pcommands cmds (psqueeze (slots v))). split.
    + split; [apply pcommands_ok, Q|]. destruct cmds as [|c cmds]; [apply Q|]. apply brace_settled, pcommands_brace. discriminate.
    + intros s R. cbv zeta. rewrite mi_plain by (rewrite rename_plain_all; auto). rewrite fill_commands, <- fill_squeeze, fill_slots; auto.
  - apply str_eqb_eq in E0. subst n. change (tag_of (lit "mo")) with TagMo. exists (psqueeze (slots v)). split.
    + apply template_squeeze, slots_plain. intro I. rewrite forallb_forall in RT. specialize (RT _ I). discriminate RT.
    + intros s R. cbv zeta. rewrite mo_plain by (rewrite rename_plain_all; auto). rewrite <- fill_squeeze, fill_slots; auto.
  - apply str_eqb_eq in E2. subst n. change (tag_of (lit "mn")) with TagMn. rewrite forallb_forall in RT.
    exists (psqueeze (slots v)). split.
    + apply template_squeeze, slots_plain. intro I. specialize (RT _ I). discriminate RT.
    + intros s R. cbv zeta. rewrite mn_ascii; [rewrite <- fill_squeeze, fill_slots; auto|].
      intros c I. apply in_map_iff in I as (d & <- & I). specialize (RT d I). pose proof (rename_alnum s d R) as A.
      destruct (alnum d) eqn:AD; [unfold alnum in A; lia|]. destruct (R d) as (_ & _ & ->); unfold letter, digit, alnum in *; lia.
  - apply str_eqb_eq in RT. subst n. change (tag_of (lit "mtext")) with TagMtext.
    set (cmds := variant_lookup mtext_variants ["\text"] (attr a "mathvariant")).
    assert (N : cmds <> []).
    { unfold cmds, mtext_variants. cbn [variant_lookup]. repeat match goal with |- context [if ?b then _ else _] => destruct b end; discriminate. }
    exists (concat (map (fun run : bool * str => if fst run then pcommands cmds (slots (snd run)) else fx (mi_latex (snd run) [])) (text_runs v))).
    split.
    + split.
      * apply Forall_concat, Forall_map, Forall_forall. intros [[|] w] _; cbn [fst snd]; [apply pcommands_ok, slots_ok|apply fx_ok].
      * destruct (existsb fst (text_runs v)) eqn:X.
        -- apply existsb_exists in X as ([b w] & I & B). cbn in B. subst b. apply brace_settled. apply in_concat.
           exists (pcommands cmds (slots w)). split; [|apply pcommands_brace; auto]. apply in_map_iff. exists (true, w). auto.
        -- replace (concat _) with (fx (concat (map (fun run => mi_latex (snd run) []) (text_runs v)))); [apply settled_fx|].
           induction (text_runs v) as [|[b w] l IH]; [reflexivity|]. cbn [existsb fst] in X. apply orb_false_iff in X as [-> X].
           cbn [map concat fst snd]. rewrite <- IH by auto. unfold fx. apply map_app.
    + intros s R. cbv zeta. unfold mtext_latex. fold cmds. rewrite (rename_runs s v R).
      assert (Y : forall run c, In run (text_runs v) -> fst run = false -> In c (snd run) -> plain_text_char c = false) by (intros run c I B J; eapply run_char; eauto).
      induction (text_runs v) as [|[b w] l IH]; [reflexivity|]. cbn [map concat fst snd]. rewrite fill_app. f_equal; [|apply IH; intros run c I; apply Y; right; auto].
      destruct b; [rewrite fill_commands, fill_slots; auto|]. rewrite fill_fx. f_equal. rewrite <- (map_id w) at 2. apply map_ext_in.
      intros c I. specialize (Y (false, w) c (or_introl eq_refl) eq_refl I). destruct (R c) as (_ & _ & E); apply E; unfold letter, digit, plain_text_char in *; lia.
Qed.

(** *** Elements *)
Definition rfill (s : N -> N) (r : res (list place)) : res str := match r with Ok p => Ok (fill s p) | Raise e => Raise e end.
Definition rtemplate (r : res (list place)) : Prop := match r with Ok p => template p | Raise _ => True end.
Lemma rseq_fill s rs : rseq (map (rfill s) rs) = match rseq rs with Ok ps => Ok (map (fill s) ps) | Raise e => Raise e end.
Proof.
  induction rs as [|r rs IH]; [reflexivity|]. cbn [map rseq]. rewrite IH. destruct r as [p|e]; cbn; [|reflexivity]. destruct (rseq rs); reflexivity.
Qed.
Lemma rseq_template rs ps : Forall rtemplate rs -> rseq rs = Ok ps -> Forall template ps.
Proof.
  intro F. revert ps. induction F as [|r rs H F IH]; intros ps E; cbn in E; [injection E as <-; constructor|].
  destruct r as [p|e]; cbn in E; [|discriminate]. destruct (rseq rs) as [qs|]; cbn in E; [|discriminate]. injection E as <-. constructor; auto.
Qed.
(** The outcome of a node as a template, given those of its children. *)
Definition gives (f : (N -> N) -> res str) : Prop := exists r, rtemplate r /\ forall s, renaming s -> f s = rfill s r.
Lemma gives_raise e f : (forall s, renaming s -> f s = Raise e) -> gives f.
Proof. intro H. exists (Raise e). split; [exact Logic.I|]. exact H. Qed.
Lemma gives_ok p f : template p -> (forall s, renaming s -> f s = Ok (fill s p)) -> gives f.
Proof. intros O H. exists (Ok p). auto. Qed.
Lemma gives_ext f g : (forall s, renaming s -> f s = g s) -> gives g -> gives f.
Proof. intros E (r & O & H). exists r. split; auto. intros s R. rewrite E; auto. Qed.
Lemma gives_seq rs (f : (N -> N) -> list str -> res str) : Forall rtemplate rs ->
  (forall ps, rseq rs = Ok ps -> Forall template ps -> gives (fun s => f s (map (fill s) ps))) ->
  gives (fun s => ss <~ rseq (map (rfill s) rs) ;; f s ss).
Proof.
  intros F H. destruct (rseq rs) as [ps|e] eqn:E.
  - eapply gives_ext; [|apply (H ps eq_refl (rseq_template rs ps F E))]. intros s _. rewrite rseq_fill, E. reflexivity.
  - apply (gives_raise e). intros s _. rewrite rseq_fill, E. reflexivity.
Qed.
Lemma gives_bind r (f : (N -> N) -> str -> res str) : rtemplate r ->
  (forall p, template p -> gives (fun s => f s (fill s p))) -> gives (fun s => x <~ rfill s r ;; f s x).
Proof.
  intros F H. destruct r as [p|e]; [|apply (gives_raise e); reflexivity]. apply (H p F).
Qed.
Lemma all_ok ps : Forall template ps -> Forall (Forall place_ok) ps.
Proof. apply Forall_impl. intros p [H _]. exact H. Qed.
Lemma template_join ps : Forall template ps -> template (pjoin (fx (lit " ")) ps).
Proof. intro F. split; [apply pjoin_ok; [apply fx_ok|apply all_ok; auto]|apply settled_join; auto]. Qed.
(** A joint that no accent holds. *)
Lemma template_gap c gap ps : In c gap -> is_space c = false -> accent_char c = false -> Forall template ps -> template (pjoin (fx gap) ps).
Proof.
  intros I S A F. split; [apply pjoin_ok; [apply fx_ok|apply all_ok; auto]|].
  destruct F as [|p ps [O H] F]; [apply (settled_fx [])|]. destruct F as [|q ps G F]; [exact H|].
  apply (settled_char c); auto. change (pjoin (fx gap) (p :: q :: ps)) with (p ++ fx gap ++ pjoin (fx gap) (q :: ps)).
  apply in_or_app. right. apply in_or_app. left. apply in_map. exact I.
Qed.
Lemma two_backslashes a b w s : In w accents -> s = a ++ [92; 92]%N ++ b -> words s = [w] -> False.
Proof.
  intros I -> E.
  assert (X : forall f, fields (a ++ [92; 92]%N ++ b) = f -> exists x, In x f /\ exists u v, x = u ++ [92; 92]%N ++ v).
  { clear. induction a as [|c a IH]; intros f <-.
    - cbn [app fields]. change (is_space 92%N) with false. cbn iota. destruct (fields_cons b) as (g & gs & ->). exists (92 :: 92 :: g)%N. split; [left; reflexivity|]. exists [], g. reflexivity.
    - destruct (IH _ eq_refl) as (x & J & u & v & ->). cbn [app fields]. cbn [app] in J. destruct (is_space c); [exists (u ++ [92; 92]%N ++ v); split; [right; auto|exists u, v; reflexivity]|].
      destruct (fields_cons (a ++ 92 :: 92 :: b)%N) as (g & gs & Eg). rewrite Eg in *. destruct J as [->|J].
      + exists (c :: u ++ [92; 92]%N ++ v). split; [left; reflexivity|]. exists (c :: u), v. reflexivity.
      + exists (u ++ [92; 92]%N ++ v). split; [right; auto|exists u, v; reflexivity]. }
  destruct (X _ eq_refl) as (x & J & u & v & ->).
  assert (K : In (u ++ [92; 92]%N ++ v) [w]) by (rewrite <- E; apply filter_In; split; [exact J|destruct u; reflexivity]).
  destruct K as [->|[]].
  assert (Y : forall l, count_occ N.eq_dec (u ++ [92; 92]%N ++ v) 92%N <= l -> 2 <= l) by (intro l; rewrite !count_occ_app; cbn; lia).
  repeat (destruct I as [I|I]; [rewrite <- I in Y; specialize (Y 1 ltac:(vm_compute; lia)); lia|]). destruct I.
Qed.
Lemma template_rows ps : Forall template ps -> template (pjoin (fx (lit " \\" ++ nl)) ps).
Proof.
  intro F. split; [apply pjoin_ok; [apply fx_ok|apply all_ok; auto]|].
  destruct F as [|p ps [O H] F]; [apply (settled_fx [])|]. destruct F as [|q ps G F]; [exact H|].
  intros s w R J E. exfalso.
  change (pjoin (fx (lit " \\" ++ nl)) (p :: q :: ps)) with (p ++ fx (lit " \\" ++ nl) ++ pjoin (fx (lit " \\" ++ nl)) (q :: ps)) in E.
  rewrite !fill_app, fill_fx in E.
  eapply (two_backslashes (fill s p ++ [32%N]) ([10%N] ++ fill s (pjoin (fx (lit " \\" ++ nl)) (q :: ps))) w); [exact J| |exact E].
  rewrite <- !app_assoc. reflexivity.
Qed.
(** Anything that holds a character no accent holds. *)
Ltac ok := repeat first [assumption | apply fx_ok | apply Forall_app; split | apply pjoin_ok | apply pfence_ok | apply all_ok | apply Forall_concat
                        | match goal with H : template _ |- _ => destruct H end].
Ltac within := repeat first [left; reflexivity | apply in_or_app; first [left; solve [within] | right; within]].
Ltac by_char c := split; [ok|apply (settled_char c%N); [|reflexivity|reflexivity]].
Ltac fills := intros; rewrite ?fill_app, ?fill_fx, ?fill_join, ?fill_fence, ?fill_fx; reflexivity.

Lemma in_fx c x l : In c x -> In (Fixed c) (fx x ++ l).
Proof. intro J. apply in_or_app. left. exact (in_map Fixed x c J). Qed.
Lemma in_behind {A} (x : A) l l' : In x l -> In x (l' ++ l).
Proof. intro I. apply in_or_app. right. exact I. Qed.

Definition pbraced (p : list place) : list place := fx (lit "{") ++ p ++ fx (lit "}").
Lemma fill_braced s p : fill s (pbraced p) = braced (fill s p).
Proof. unfold pbraced, braced. rewrite !fill_app, !fill_fx. reflexivity. Qed.
Lemma pbraced_ok p : Forall place_ok p -> Forall place_ok (pbraced p).
Proof. intro H. unfold pbraced. repeat (apply Forall_app; split); auto using fx_ok. Qed.
Lemma pbraced_brace p : In (Fixed 123%N) (pbraced p).
Proof. left. reflexivity. Qed.
Definition pparen (b : bool) (p : list place) : list place := if b then fx (lit "\left(") ++ p ++ fx (lit "\right)") else p.
Lemma pparen_ok b p : Forall place_ok p -> Forall place_ok (pparen b p).
Proof. intro H. destruct b; cbn [pparen]; auto. repeat (apply Forall_app; split); auto using fx_ok. Qed.
Lemma fill_base s b p : base_latex b (fill s p) = fill s (pparen (Nat.ltb 1 (length (t_children b)) && Nat.ltb 1 (length p)) p).
Proof. unfold base_latex, pparen. rewrite fill_length. destruct (_ && _); [rewrite !fill_app, !fill_fx|]; reflexivity. Qed.
Lemma fill_long s p : paren_if_long (fill s p) = fill s (pparen (Nat.ltb 1 (length p)) p).
Proof. unfold paren_if_long, pparen. rewrite fill_length. destruct (Nat.ltb _ _); [rewrite !fill_app, !fill_fx|]; reflexivity. Qed.
Lemma fill_space s p : renaming s -> paren_if_space (fill s p) = fill s (pparen (existsb (fun x => is_space (code x)) p) p).
Proof. intro R. unfold paren_if_space, pparen. rewrite (fill_spaces s p R). destruct (existsb _ p); [rewrite !fill_app, !fill_fx|]; reflexivity. Qed.
Lemma enclosed_template name p : template p -> exists q, template q /\ forall s, renaming s -> enclosed name (fill s p) = fill s q.
Proof.
  intros [O S]. unfold enclosed. destruct (notation_lookup notations name) as [b e] eqn:E.
  exists (fx (lit b) ++ p ++ fx (lit e)). split; [|intros s _; rewrite !fill_app, !fill_fx; reflexivity].
  split; [repeat (apply Forall_app; split); auto using fx_ok|].
  assert (X : existsb (fun c => negb (is_space c) && negb (accent_char c)) (lit b ++ lit e) = true).
  { unfold notations in E. cbn [notation_lookup] in E.
    repeat match type of E with (if ?b then _ else _) = _ => destruct b; [injection E as <- <-; reflexivity|] end. injection E as <- <-. reflexivity. }
  apply existsb_exists in X as (c & I & C). apply andb_true_iff in C as [C1 C2]. apply negb_true_iff in C1, C2.
  apply (settled_char c); auto. apply in_app_or in I as [I|I]; [apply in_fx; auto|].
  apply in_behind, in_behind. apply in_map. exact I.
Qed.
Lemma accent_uniform s p : renaming s -> template p -> str_in (fill s p) accents = str_in (fill (fun c => c) p) accents.
Proof.
  intros R [O S].
  assert (Id : renaming (fun c => c)) by (intro c; auto).
  assert (X : forall s1 s2, renaming s1 -> renaming s2 -> str_in (fill s1 p) accents = true -> str_in (fill s2 p) accents = true).
  { intros s1 s2 R1 R2 H. apply str_in_spec in H as I.
    assert (W : words (fill s1 p) = [fill s1 p]) by (apply words_word_id; split; [destruct (fill s1 p) eqn:E; [|discriminate]; revert I; clear; vm_compute; intuition discriminate|];
      revert I; clear; generalize (fill s1 p) as x; intros x I c J; repeat (destruct I as [<-|I]; [revert c J; apply Forall_forall; repeat constructor|]); destruct I).
    rewrite (S s1 (fill s1 p) R1 I W), fill_fx. exact H. }
  destruct (str_in (fill s p) accents) eqn:E1, (str_in (fill (fun c => c) p) accents) eqn:E2; auto.
  - rewrite (X s (fun c => c)) in E2; auto.
  - rewrite (X (fun c => c) s) in E1; auto.
Qed.
Lemma fill_row s ps : join (lit " ") (map (fill s) ps) = fill s (pjoin (fx (lit " ")) ps).
Proof. rewrite fill_join, fill_fx. reflexivity. Qed.
Lemma fill_concat s ps : concat (map (fill s) ps) = fill s (concat ps).
Proof. induction ps as [|p ps IH]; [reflexivity|]. cbn [map concat]. rewrite fill_app, IH. reflexivity. Qed.
Lemma concat_ok ps : Forall template ps -> Forall place_ok (concat ps).
Proof. intro F. apply Forall_concat, all_ok. exact F. Qed.
Lemma row_ok ps : Forall template ps -> Forall place_ok (pjoin (fx (lit " ")) ps).
Proof. intro F. apply (template_join ps F). Qed.
Definition pscripts (p q : list place) : list place := fx (lit "_") ++ pbraced p ++ fx (lit "^") ++ pbraced q.
Lemma fill_scripts s p q : fill s (pscripts p q) = lit "_" ++ braced (fill s p) ++ lit "^" ++ braced (fill s q).
Proof. unfold pscripts. rewrite !fill_app, !fill_fx, !fill_braced. reflexivity. Qed.
Lemma pscripts_ok p q : Forall place_ok p -> Forall place_ok q -> Forall place_ok (pscripts p q).
Proof. intros. unfold pscripts. repeat (apply Forall_app; split); auto using fx_ok, pbraced_ok. Qed.
Definition penv (name : string) (p : list place) : list place :=
  fx (lit "\begin{" ++ lit name ++ lit "}") ++ p ++ fx (lit "\end{" ++ lit name ++ lit "}").
Lemma fill_env s name p : fill s (penv name p) = env name (fill s p).
Proof. unfold penv, env. rewrite !fill_app, !fill_fx, <- !app_assoc. reflexivity. Qed.
Lemma penv_ok name p : Forall place_ok p -> Forall place_ok (penv name p).
Proof. intros. unfold penv. repeat (apply Forall_app; split); auto using fx_ok. Qed.
Lemma penv_brace name p : In (Fixed 123%N) (penv name p).
Proof. unfold penv. apply in_fx. apply in_or_app. left. vm_compute. tauto. Qed.
Lemma template_brace p : Forall place_ok p -> In (Fixed 123%N) p -> template p.
Proof. intros O J. split; [exact O|apply brace_settled; exact J]. Qed.
Lemma in_left {A} (x : A) l l' : In x l -> In x (l ++ l').
Proof. intro J. apply in_or_app. left. exact J. Qed.
Ltac ok_all := repeat match goal with H : template _ |- _ => destruct H end;
  repeat first [assumption | apply fx_ok | apply pbraced_ok | apply pscripts_ok | apply penv_ok | apply pparen_ok | apply row_ok | apply concat_ok | apply pfence_ok | apply all_ok
               | (apply Forall_app; split)].
Ltac brace := repeat first [apply pbraced_brace | apply penv_brace | apply in_left; solve [repeat first [apply pbraced_brace | apply in_left]] | apply in_behind].

Definition nth_or (rs : list (res (list place))) (i : nat) : res (list place) := nth i rs (Ok []).
Lemma nth_fill s rs i : nth i (map (rfill s) rs) (Ok []) = rfill s (nth i rs (Ok [])).
Proof. exact (map_nth (rfill s) rs (Ok []) i). Qed.
Lemma nth_template rs i : Forall rtemplate rs -> rtemplate (nth i rs (Ok [])).
Proof.
  intro F. revert i. induction F as [|r rs H F IH]; intros [|i]; cbn [nth]; auto; exact (conj (Forall_nil _) (settled_fx [])).
Qed.
Lemma gives_const x : gives (fun _ => Ok x).
Proof. apply (gives_ok (fx x)); [split; [apply fx_ok|apply settled_fx]|]. intros. rewrite fill_fx. reflexivity. Qed.

Lemma node_gives inside n v qs a : Forall rtemplate (map snd qs) ->
  gives (fun s => node inside n (if renamed_text n v then map s v else v) (map (fun q => (fst q, rfill s (snd q))) qs) a).
Proof.
  intro F. set (rs := map snd qs) in *.
  assert (E1 : forall s, map snd (map (fun q : tree * res (list place) => (fst q, rfill s (snd q))) qs) = map (rfill s) rs) by (intro; unfold rs; rewrite !map_map; reflexivity).
  assert (E2 : forall s, map fst (map (fun q : tree * res (list place) => (fst q, rfill s (snd q))) qs) = map fst qs) by (intro; rewrite !map_map; reflexivity).
  assert (E3 : forall s, length (map (fun q : tree * res (list place) => (fst q, rfill s (snd q))) qs) = length qs) by (intro; apply map_length).
  assert (TK : In (tag_of n) [TagMi; TagMo; TagMn; TagMtext] -> gives (fun s => Ok (let v' := if renamed_text n v then map s v else v in
    match tag_of n with TagMi => mi_latex v' a | TagMo => mo_latex v' | TagMn => mn_latex v' | _ => mtext_latex v' a end))).
  { intro J. destruct (token_template n v a J) as (p & O & H). apply (gives_ok p _ O). intros s R. f_equal. apply (H s R). }
  unfold node. destruct (tag_of n) eqn:Tg.
  - (* math *) eapply gives_ext; [intros; rewrite E1; reflexivity|]. apply (gives_seq rs _ F). intros ps _ O.
    apply (gives_ok (psqueeze (pjoin (fx (lit " ")) ps))); [apply template_squeeze, template_join; auto|]. intros s R. rewrite fill_row, fill_squeeze; auto.
  - apply TK. cbn; auto.
  - apply TK. cbn; auto.
  - apply TK. cbn; auto.
  - apply TK. cbn; auto.
  - (* sqrt *) eapply gives_ext; [intros; rewrite E1; reflexivity|]. apply (gives_seq rs _ F). intros ps _ O.
    apply (gives_ok (fx (lit "\sqrt") ++ pbraced (pjoin (fx (lit " ")) ps))).
    + apply template_brace; [ok_all|brace].
    + intros. rewrite fill_row, !fill_app, !fill_fx, fill_braced. reflexivity.
  - (* fenced *) eapply gives_ext; [intros; rewrite E1, E2; reflexivity|]. apply (gives_seq rs _ F). intros ps _ O.
    destruct (existsb has_table (map fst qs)).
    + unfold fenced_matrix. set (e := fence_env _ _).
      assert (X : template (penv e (fx nl ++ concat ps ++ fx nl))) by (apply template_brace; [ok_all|brace]).
      destruct (String.eqb e "matrix").
      * apply (gives_ok (fx (lit "\left") ++ fx (attr a "open") ++ penv e (fx nl ++ concat ps ++ fx nl) ++ fx (lit "\right") ++ fx (attr a "close"))).
        -- split; [ok_all|]. apply brace_settled. apply in_behind, in_behind, in_left, penv_brace.
        -- intros. rewrite fill_concat, !fill_app, !fill_fx, fill_env, !fill_app, !fill_fx. reflexivity.
      * apply (gives_ok _ _ X). intros. rewrite fill_concat, fill_env, !fill_app, !fill_fx. reflexivity.
    + apply (gives_ok (fx (lit "\left") ++ fx (default (attr a "open") "(") ++ pfence (attr a "separators") ps ++ fx (lit "\right") ++ fx (default (attr a "close") ")"))).
      * split; [ok_all|]. apply (settled_char 102%N); [|reflexivity|reflexivity]. apply in_fx. vm_compute. tauto.
      * intros. rewrite !fill_app, !fill_fx, fill_fence. reflexivity.
  - (* frac *) eapply gives_ext; [intros; rewrite E1, E3; reflexivity|].
    destruct F as [|r rs1 H1 F]; [eapply gives_raise; reflexivity|]. destruct F as [|r2 rs2 H2 F]; [eapply gives_raise; reflexivity|].
    destruct F; [|eapply gives_raise; reflexivity]. cbn [map]. apply (gives_bind r); auto. intros p P. apply (gives_bind r2); auto. intros q Q.
    destruct (truthy (attr a "bevelled")).
    + apply (gives_ok (pparen (Nat.ltb 1 (length p)) p ++ fx (lit "/") ++ pparen (Nat.ltb 1 (length q)) q)).
      * split; [ok_all|]. apply (settled_char 47%N); [|reflexivity|reflexivity]. apply in_behind, in_fx. left. reflexivity.
      * intros. rewrite !fill_app, !fill_fx, !fill_long. reflexivity.
    + apply (gives_ok (fx (lit "\frac") ++ pbraced p ++ pbraced q)); [apply template_brace; [ok_all|apply in_behind, in_left, pbraced_brace]|].
      intros. rewrite !fill_app, !fill_fx, !fill_braced. reflexivity.
  - (* root *) eapply gives_ext; [intros; rewrite E1, E3; reflexivity|].
    destruct F as [|r rs1 H1 F]; [eapply gives_raise; reflexivity|]. destruct F as [|r2 rs2 H2 F]; [eapply gives_raise; reflexivity|].
    destruct F; [|eapply gives_raise; reflexivity]. cbn [map]. apply (gives_bind r); auto. intros p P. apply (gives_bind r2); auto. intros q Q.
    apply (gives_ok (fx (lit "\sqrt[") ++ q ++ fx (lit "]") ++ pbraced p)); [apply template_brace; [ok_all|apply in_behind, in_behind, in_behind, pbraced_brace]|].
    intros. rewrite !fill_app, !fill_fx, !fill_braced. reflexivity.
  - (* action *) eapply gives_ext; [intros; rewrite E1; reflexivity|]. destruct (_ && _).
    + destruct F as [|r rs1 H1 F]; [eapply gives_raise; reflexivity|]. cbn [map]. exists r. split; auto.
    + apply (gives_seq rs _ F). intros ps _ O. apply (gives_ok (pjoin (fx (lit " \Longrightarrow ")) ps)).
      * apply (template_gap 76%N); auto. vm_compute. tauto.
      * intros. rewrite fill_join, fill_fx. reflexivity.
  - (* enclose *) eapply gives_ext; [intros; rewrite E1; reflexivity|]. apply (gives_seq rs _ F). intros ps _ O.
    destruct (enclosed_template (dget_or a (lit "notation") (lit "longdiv")) _ (template_join ps O)) as (q & Q & H).
    apply (gives_ok q _ Q). intros s R. rewrite fill_row, H; auto.
  - (* error *) eapply gives_ext; [intros; rewrite E1; reflexivity|]. apply (gives_seq rs _ F). intros ps _ O.
    apply (gives_ok (fx (lit "\color{red}") ++ pbraced (pjoin (fx (lit " ")) ps))).
    + apply template_brace; [ok_all|apply in_behind, pbraced_brace].
    + intros. rewrite fill_row, !fill_app, !fill_fx, fill_braced. reflexivity.
  - apply gives_const.
  - (* sup *)
    eapply (gives_ext _ (fun s => match map (fun q => (fst q, rfill s (snd q))) qs with
      | [(b, rb); (_, rx)] => sb <~ rb ;; sx <~ rx ;; Ok (base_latex b sb ++ lit "^" ++ braced sx) | _ => arity_error n 2 (length qs) end)).
    { intros s _. rewrite E3. reflexivity. }
    subst rs. destruct qs as [|[b rb] [|[x rx] [|]]]; try (eapply gives_raise; reflexivity). cbn [map fst snd] in *.
    inversion F as [|? ? F1 F2]; subst. inversion F2 as [|? ? F3 F4]; subst.
    apply (gives_bind rb); auto. intros p P. apply (gives_bind rx); auto. intros q Q.
    apply (gives_ok (pparen (Nat.ltb 1 (length (t_children b)) && Nat.ltb 1 (length p)) p ++ fx (lit "^") ++ pbraced q)).
    + apply template_brace; [ok_all|apply in_behind, in_behind, pbraced_brace].
    + intros. rewrite !fill_app, !fill_fx, !fill_braced, fill_base. reflexivity.
  - (* sub *)
    eapply (gives_ext _ (fun s => match map (fun q => (fst q, rfill s (snd q))) qs with
      | [(b, rb); (_, rx)] => sb <~ rb ;; sx <~ rx ;; Ok (base_latex b sb ++ lit "_" ++ braced sx) | _ => arity_error n 2 (length qs) end)).
    { intros s _. rewrite E3. reflexivity. }
    subst rs. destruct qs as [|[b rb] [|[x rx] [|]]]; try (eapply gives_raise; reflexivity). cbn [map fst snd] in *.
    inversion F as [|? ? F1 F2]; subst. inversion F2 as [|? ? F3 F4]; subst.
    apply (gives_bind rb); auto. intros p P. apply (gives_bind rx); auto. intros q Q.
    apply (gives_ok (pparen (Nat.ltb 1 (length (t_children b)) && Nat.ltb 1 (length p)) p ++ fx (lit "_") ++ pbraced q)).
    + apply template_brace; [ok_all|apply in_behind, in_behind, pbraced_brace].
    + intros. rewrite !fill_app, !fill_fx, !fill_braced, fill_base. reflexivity.
  - (* subsup *)
    eapply (gives_ext _ (fun s => match map (fun q => (fst q, rfill s (snd q))) qs with
      | [(b, rb); (_, rx); (_, ry)] => sb <~ rb ;; sx <~ rx ;; sy <~ ry ;; Ok (base_latex b sb ++ lit "_" ++ braced sx ++ lit "^" ++ braced sy)
      | _ => arity_error n 3 (length qs) end)).
    { intros s _. rewrite E3. reflexivity. }
    subst rs. destruct qs as [|[b rb] [|[x rx] [|[y ry] [|]]]]; try (eapply gives_raise; reflexivity). cbn [map fst snd] in *.
    inversion F as [|? ? F1 F2]; subst. inversion F2 as [|? ? F3 F4]; subst. inversion F4 as [|? ? F5 F6]; subst.
    apply (gives_bind rb); auto. intros p P. apply (gives_bind rx); auto. intros q Q. apply (gives_bind ry); auto. intros q' Q'.
    apply (gives_ok (pparen (Nat.ltb 1 (length (t_children b)) && Nat.ltb 1 (length p)) p ++ pscripts q q')).
    + apply template_brace; [ok_all|apply in_behind; unfold pscripts; apply in_behind, in_left, pbraced_brace].
    + intros. rewrite !fill_app, fill_scripts, fill_base. reflexivity.
  - (* multiscripts *)
    set (pre1 := match nth_error qs 1 with Some (t, _) => str_eqb (t_name t) (lit "mprescripts") | None => false end).
    set (pre3 := match nth_error qs 3 with Some (t, _) => str_eqb (t_name t) (lit "mprescripts") | None => false end).
    assert (P1 : forall s i, match nth_error (map (fun q : tree * res (list place) => (fst q, rfill s (snd q))) qs) i with Some (t, _) => str_eqb (t_name t) (lit "mprescripts") | None => false end
      = match nth_error qs i with Some (t, _) => str_eqb (t_name t) (lit "mprescripts") | None => false end).
    { intros s i. rewrite nth_error_map. destruct (nth_error qs i) as [[t r]|]; reflexivity. }
    destruct (Nat.ltb (length qs) 3) eqn:L.
    { eapply gives_raise. intros s _. rewrite E3, L. reflexivity. }
    clearbody rs.
    assert (PRE : exists r, rtemplate r /\ (forall p, r = Ok p -> p = [] \/ In (Fixed 123%N) p) /\ forall s, renaming s ->
      (if pre1 && Nat.leb 4 (length qs) then sc <~ (sx <~ rfill s (nth 2 rs (Ok [])) ;; sy <~ rfill s (nth 3 rs (Ok [])) ;; Ok (lit "_" ++ braced sx ++ lit "^" ++ braced sy)) ;; Ok (lit "\" ++ sc)
       else if pre3 && Nat.leb 6 (length qs) then sc <~ (sx <~ rfill s (nth 4 rs (Ok [])) ;; sy <~ rfill s (nth 5 rs (Ok [])) ;; Ok (lit "_" ++ braced sx ++ lit "^" ++ braced sy)) ;; Ok (lit "\" ++ sc)
       else Ok []) = rfill s r).
    { assert (X : forall i j, exists r, rtemplate r /\ (forall p, r = Ok p -> p = [] \/ In (Fixed 123%N) p) /\ forall s, renaming s ->
        (sc <~ (sx <~ rfill s (nth i rs (Ok [])) ;; sy <~ rfill s (nth j rs (Ok [])) ;; Ok (lit "_" ++ braced sx ++ lit "^" ++ braced sy)) ;; Ok (lit "\" ++ sc)) = rfill s r).
      { intros i j. pose proof (nth_template rs i F) as T1. pose proof (nth_template rs j F) as T2.
        destruct (nth i rs (Ok [])) as [p|e]; [|exists (Raise e); repeat split; discriminate]. destruct (nth j rs (Ok [])) as [q|e]; [|exists (Raise e); repeat split; discriminate].
        assert (B1 : In (Fixed 123%N) (fx (lit "\") ++ pscripts p q)) by (apply in_behind; unfold pscripts; apply in_behind, in_left, pbraced_brace).
        exists (Ok (fx (lit "\") ++ pscripts p q)). cbn [rtemplate] in *. split; [apply template_brace; [ok_all|exact B1]|]. split; [intros p' [= <-]; auto|].
        intros s R. cbn [rfill rbind]. rewrite fill_app, fill_fx, fill_scripts. reflexivity. }
      destruct (pre1 && _); [apply X|]. destruct (pre3 && _); [apply X|]. exists (Ok []). split; [exact (conj (Forall_nil _) (settled_fx []))|]. split; [intros p [= <-]; auto|reflexivity]. }
    assert (POST : exists r, rtemplate r /\ (forall p, r = Ok p -> p = [] \/ In (Fixed 123%N) p) /\ forall s, renaming s ->
      (if pre1 then Ok [] else sx <~ rfill s (nth 1 rs (Ok [])) ;; sy <~ rfill s (nth 2 rs (Ok [])) ;; Ok (lit "_" ++ braced sx ++ lit "^" ++ braced sy)) = rfill s r).
    { destruct pre1; [exists (Ok []); split; [exact (conj (Forall_nil _) (settled_fx []))|]; split; [intros p [= <-]; auto|reflexivity]|].
      pose proof (nth_template rs 1 F) as T1. pose proof (nth_template rs 2 F) as T2.
      destruct (nth 1 rs (Ok [])) as [p|e]; [|exists (Raise e); repeat split; discriminate]. destruct (nth 2 rs (Ok [])) as [q|e]; [|exists (Raise e); repeat split; discriminate].
      assert (B1 : In (Fixed 123%N) (pscripts p q)) by (unfold pscripts; apply in_behind, in_left, pbraced_brace).
      exists (Ok (pscripts p q)). cbn [rtemplate] in *. split; [apply template_brace; [ok_all|exact B1]|]. split; [intros p' [= <-]; auto|].
      intros s R. cbn [rfill rbind]. rewrite fill_scripts. reflexivity. }
    destruct PRE as (r1 & O1 & B1 & H1), POST as (r2 & O2 & B2 & H2).
    eapply (gives_ext _ (fun s => sb <~ rfill s (nth 0 rs (Ok [])) ;; pre <~ rfill s r1 ;; post <~ rfill s r2 ;; Ok (pre ++ paren_if_space sb ++ post))).
    { intros s R. rewrite <- (H1 s R), <- (H2 s R), E1, E3, L, (P1 s 1), (P1 s 3), !(nth_fill s). reflexivity. }
    pose proof (nth_template rs 0 F) as B. destruct (nth 0 rs (Ok [])) as [b|e0]; [|eapply gives_raise; reflexivity].
    destruct r1 as [p1|e1]; [|eapply gives_raise; reflexivity]. destruct r2 as [p2|e2]; [|eapply gives_raise; reflexivity]. cbn [rfill rbind rtemplate] in *.
    apply (gives_ok (p1 ++ pparen (existsb (fun x => is_space (code x)) b) b ++ p2)).
    + split; [ok_all|]. destruct (B1 p1 eq_refl) as [->|I1]; [|apply brace_settled, in_left; auto].
      destruct (B2 p2 eq_refl) as [->|I2]; [|apply brace_settled, in_behind, in_behind; auto]. cbn [app]. rewrite app_nil_r.
      destruct (existsb _ b); cbn [pparen]; [|apply B]. apply (settled_char 102%N); [|reflexivity|reflexivity]. apply in_fx. vm_compute. tauto.
    + intros s R. rewrite !fill_app, fill_space; auto.
  - (* underover *) eapply gives_ext; [intros; rewrite E1, E3; reflexivity|].
    destruct F as [|r rs1 H1 F]; [eapply gives_raise; reflexivity|]. destruct F as [|r2 rs2 H2 F]; [eapply gives_raise; reflexivity|].
    destruct F as [|r3 rs3 H3 F]; [eapply gives_raise; reflexivity|].
    destruct F; [|eapply gives_raise; reflexivity]. cbn [map]. apply (gives_bind r); auto. intros p P. apply (gives_bind r2); auto. intros q Q.
    apply (gives_bind r3); auto. intros q' Q'.
    apply (gives_ok (p ++ pscripts q q')); [apply template_brace; [ok_all|apply in_behind; unfold pscripts; apply in_behind, in_left, pbraced_brace]|].
    intros. rewrite !fill_app, fill_scripts. reflexivity.
  - (* under *) eapply gives_ext; [intros; rewrite E1, E3; reflexivity|].
    destruct F as [|r rs1 H1 F]; [eapply gives_raise; reflexivity|]. destruct F as [|r2 rs2 H2 F]; [eapply gives_raise; reflexivity|].
    destruct F; [|eapply gives_raise; reflexivity]. cbn [map]. apply (gives_bind r); auto. intros p P. apply (gives_bind r2); auto. intros q Q.
    fold accents. destruct (str_in (fill (fun c => c) q) accents) eqn:A.
    + apply (gives_ok (q ++ pbraced p)); [apply template_brace; [ok_all|apply in_behind, pbraced_brace]|].
      intros s R. pose proof (accent_uniform s q R Q) as U. unfold accents in U at 1; cbn [map] in U. rewrite U, A, fill_app, fill_braced. reflexivity.
    + apply (gives_ok (fx (lit "\underset") ++ pbraced q ++ pbraced p)); [apply template_brace; [ok_all|apply in_behind, in_behind, pbraced_brace]|].
      intros s R. pose proof (accent_uniform s q R Q) as U. unfold accents in U at 1; cbn [map] in U. rewrite U, A, !fill_app, fill_fx, !fill_braced. reflexivity.
  - (* over *) eapply gives_ext; [intros; rewrite E1, E3; reflexivity|].
    destruct F as [|r rs1 H1 F]; [eapply gives_raise; reflexivity|]. destruct F as [|r2 rs2 H2 F]; [eapply gives_raise; reflexivity|].
    destruct F; [|eapply gives_raise; reflexivity]. cbn [map]. apply (gives_bind r); auto. intros p P. apply (gives_bind r2); auto. intros q Q.
    fold accents. destruct (str_in (fill (fun c => c) q) accents) eqn:A.
    + apply (gives_ok (q ++ pbraced p)); [apply template_brace; [ok_all|apply in_behind, pbraced_brace]|].
      intros s R. pose proof (accent_uniform s q R Q) as U. unfold accents in U at 1; cbn [map] in U. rewrite U, A, fill_app, fill_braced. reflexivity.
    + apply (gives_ok (fx (lit "\overset") ++ pbraced q ++ pbraced p)); [apply template_brace; [ok_all|apply in_behind, in_behind, pbraced_brace]|].
      intros s R. pose proof (accent_uniform s q R Q) as U. unfold accents in U at 1; cbn [map] in U. rewrite U, A, !fill_app, fill_fx, !fill_braced. reflexivity.
  - (* table *) eapply gives_ext; [intros; rewrite E1; reflexivity|]. apply (gives_seq rs _ F). intros ps _ O.
    pose proof (template_rows ps O) as X. destruct (_ || _).
    + apply (gives_ok (penv "matrix" (pjoin (fx (lit " \\" ++ nl)) ps))); [apply template_brace; [apply penv_ok, X|apply penv_brace]|].
      intros. rewrite fill_env, fill_join, fill_fx. reflexivity.
    + apply (gives_ok _ _ X). intros. rewrite fill_join, fill_fx. reflexivity.
  - (* tr *) eapply gives_ext; [intros; rewrite E1; reflexivity|]. apply (gives_seq rs _ F). intros ps _ O.
    apply (gives_ok (pjoin (fx (lit " & ")) ps)); [apply (template_gap 38%N); auto; vm_compute; tauto|]. intros. rewrite fill_join, fill_fx. reflexivity.
  - (* row *) eapply gives_ext; [intros; rewrite E1; reflexivity|]. apply (gives_seq rs _ F). intros ps _ O.
    apply (gives_ok (pjoin (fx (lit " ")) ps)); [apply template_join; auto|]. intros. rewrite fill_row. reflexivity.
Qed.

Lemma rename_table s t : has_table (rename s t) = has_table t.
Proof.
  induction t as [n v ch a IH] using tree_ind'. cbn [rename]. change (has_table (T n v ch a)) with (str_eqb n (lit "mtable") || existsb has_table ch).
  cbn [has_table]. f_equal. induction IH as [|c l H F IH]; [reflexivity|]. cbn [map existsb]. rewrite H, IH. reflexivity.
Qed.
Lemma rename_facts s t : t_name (rename s t) = t_name t /\ length (t_children (rename s t)) = length (t_children t) /\ has_table (rename s t) = has_table t.
Proof. split; [|split; [|apply rename_table]]; destruct t; cbn; rewrite ?map_length; reflexivity. Qed.

Lemma render_gives t : forall inside, gives (fun s => render inside (rename s t)).
Proof.
  induction t as [n v ch a IH] using tree_ind'. intro inside.
  assert (K : exists qs, Forall rtemplate (map snd qs) /\ forall s, renaming s ->
    Forall2 (weak_look (str_eqb n (lit "mfenced"))) (map (fun c => (c, render (inside || is_table n) c)) (map (rename s) ch)) (map (fun q => (fst q, rfill s (snd q))) qs)).
  { induction IH as [|c l H F IH]; [exists []; split; [constructor|intros; constructor]|].
    destruct IH as (qs & Q & IH). destruct (H (inside || is_table n)) as (r & O & E). exists ((c, r) :: qs). split; [constructor; auto|].
    intros s R. cbn [map]. constructor; [|apply IH; exact R]. destruct (rename_facts s c) as (F1 & F2 & F3).
    unfold weak_look. cbn [fst snd]. rewrite F2, F3. split; [apply (E s R)|]. split; [|auto]. unfold named_mprescripts. rewrite F1. reflexivity. }
  destruct K as (qs & Q & K). eapply gives_ext; [|apply (node_gives inside n v qs a Q)].
  intros s R. cbn [rename render]. apply node_weak. apply (K s R).
Qed.
Lemma latex_gives t : gives (fun s => latex_of (rename s t)).
Proof. eapply gives_ext; [|apply (render_gives t false)]. intros s _. apply latex_of_render. Qed.
Lemma documents_rename ts : exists r, match r with Ok p => Forall place_ok p | Raise _ => True end /\ forall s, renaming s -> (ss <~ rseq (map latex_of (map (rename s) ts)) ;; Ok (concat ss)) = rfill s r.
Proof.
  assert (X : exists rs, Forall rtemplate rs /\ forall s, renaming s -> map latex_of (map (rename s) ts) = map (rfill s) rs).
  { induction ts as [|t ts (rs & F & IH)]; [exists []; split; [constructor|reflexivity]|]. destruct (latex_gives t) as (r & O & H).
    exists (r :: rs). split; [constructor; auto|]. intros s R. cbn [map]. rewrite H, IH; auto. }
  destruct X as (rs & F & H).
  destruct (rseq rs) as [ps|e] eqn:E.
  - exists (Ok (concat ps)). split; [apply concat_ok; exact (rseq_template rs ps F E)|]. intros s R. rewrite H, rseq_fill, E; auto. cbn [rbind rfill]. rewrite fill_concat. reflexivity.
  - exists (Raise e). split; [exact Logic.I|]. intros s R. rewrite H, rseq_fill, E; auto.
Qed.
