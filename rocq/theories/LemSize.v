(** Output size. *)
From Coq Require Import String.
From Verif Require Export LemText SpecSize.
Local Open Scope string_scope.
Local Open Scope list_scope.

Lemma list_sum_cons x l : list_sum (x :: l) = x + list_sum l.
Proof. reflexivity. Qed.
Lemma attribute_chars_cons k v a : attribute_chars ((k, v) :: a) = length v + attribute_chars a.
Proof. reflexivity. Qed.
Lemma attr_cons a k k' v : attr ((k', v) :: a) k = if str_eqb (lit k) k' then v else attr a k.
Proof. unfold attr, dget_or. cbn [dget]. destruct (str_eqb _ _); auto. Qed.
Lemma attr_chars a k : length (attr a k) <= attribute_chars a.
Proof.
  induction a as [|[k' v] a IH]; [cbn; lia|]. rewrite attribute_chars_cons, attr_cons. destruct (str_eqb _ _); lia.
Qed.
Lemma attr_chars2 a k k' : k <> k' -> length (attr a k) + length (attr a k') <= attribute_chars a.
Proof.
  intro N. assert (NL : lit k <> lit k').
  { intro E. apply N. revert E. clear. unfold lit. revert k'.
    induction k as [|c k IH]; intros [|c' k'] E; cbn in E; try discriminate; auto. injection E as E1 E2.
    f_equal; [|apply IH; auto]. apply (f_equal Ascii.ascii_of_N) in E1. rewrite !Ascii.ascii_N_embedding in E1. auto. }
  induction a as [|[k1 v] a IH]; [cbn; lia|]. rewrite attribute_chars_cons, !attr_cons.
  pose proof (attr_chars a k) as B1. pose proof (attr_chars a k') as B2.
  destruct (str_eqb (lit k) k1) eqn:E1, (str_eqb (lit k') k1) eqn:E2; try lia.
  apply str_eqb_eq in E1, E2. congruence.
Qed.
Lemma fields_length s : list_sum (map (fun w => S (length w)) (fields s)) = S (length s).
Proof.
  induction s as [|c s IH]; [reflexivity|]. cbn [fields].
  destruct (is_space c).
  - cbn [map length]. rewrite list_sum_cons, IH. reflexivity.
  - destruct (fields_cons s) as (f & fs & E). rewrite E in *. cbn [map length] in *. rewrite list_sum_cons in *. lia.
Qed.
Lemma words_length s : list_sum (map (fun w => S (length w)) (words s)) <= S (length s).
Proof.
  rewrite <- fields_length. unfold words. induction (fields s) as [|w l IH]; cbn [filter map]; auto.
  rewrite list_sum_cons. destruct (truthy w); cbn [map]; rewrite ?list_sum_cons; lia.
Qed.
(** The lengths of some texts with [k] more for each. *)
Definition total (k : nat) (ss : list str) : nat := list_sum (map (fun w : str => length w + k) ss).
Lemma total_cons k s ss : total k (s :: ss) = length s + k + total k ss.
Proof. reflexivity. Qed.
Lemma total_nil k : total k [] = 0.
Proof. reflexivity. Qed.
Lemma total_mono k k' ss : k <= k' -> total k ss <= total k' ss.
Proof. intro H. induction ss; rewrite ?total_nil, ?total_cons; lia. Qed.
Lemma join_length sep w l : length (join sep (w :: l)) + length sep = total (length sep) (w :: l).
Proof.
  revert w. induction l as [|w2 l IH]; intro w; rewrite total_cons, ?total_nil; [cbn [join]; lia|].
  change (join sep (w :: w2 :: l)) with (w ++ sep ++ join sep (w2 :: l)). rewrite !app_length.
  specialize (IH w2). lia.
Qed.
Lemma join_length1 sep l : length (join sep l) <= total (length sep) l.
Proof. destruct l as [|w l]; [cbn; lia|]. pose proof (join_length sep w l). lia. Qed.
Lemma squeeze_length s : length (squeeze s) <= length s.
Proof.
  unfold squeeze. pose proof (words_length s) as W. destruct (words s) as [|w l]; [cbn; lia|].
  pose proof (join_length (lit " ") w l) as T. change (length (lit " ")) with 1 in T.
  assert (E : list_sum (map (fun w => S (length w)) (w :: l)) = total 1 (w :: l)).
  { unfold total. f_equal. apply map_ext. intro. lia. }
  lia.
Qed.

Definition entry_max := 34.
Lemma entries_short d : In d [all_math_symbols_by_char; all_math_symbols_by_glyph; all_math_operators_by_char;
    all_math_operators_by_glyph; math_number_by_glyph] -> forall k v, dget d k = Some v -> length v <= entry_max.
Proof.
  intros I k v G. apply (dget_keys d (fun k v => Nat.leb (length v) entry_max)) in G; [apply Nat.leb_le; auto|].
  repeat (destruct I as [<-|I]; [vm_compute; reflexivity|]). destruct I.
Qed.
Lemma first_entry_length ts w s : incl ts [all_math_symbols_by_char; all_math_symbols_by_glyph; all_math_operators_by_char;
    all_math_operators_by_glyph; math_number_by_glyph] -> first_entry ts w = Some s -> length s <= entry_max.
Proof.
  induction ts as [|d ts IH]; intros I E; [discriminate|]. cbn [first_entry] in E.
  destruct (dget d w) as [[|c cs]|] eqn:G.
  - apply IH; auto. intros x X. apply I. cbn; auto.
  - injection E as <-. eapply entries_short; [|exact G]. apply I. cbn; auto.
  - apply IH; auto. intros x X. apply I. cbn; auto.
Qed.
Lemma accent_length w : length (accent_or_font w) <= entry_max + length w.
Proof.
  unfold accent_or_font. destruct (dget vowels_with_accents w) as [x|] eqn:G.
  - destruct (dget accent_to_ltx_cmd (ac_accent x)) as [cmd|] eqn:G2; [|lia].
    apply (dget_keys vowels_with_accents (fun k v => Nat.leb (length (ac_char v)) 10)) in G; [|vm_compute; reflexivity].
    apply (dget_keys accent_to_ltx_cmd (fun k v => Nat.leb (length v) 10)) in G2; [|vm_compute; reflexivity].
    apply Nat.leb_le in G, G2. rewrite !app_length. change (length (lit "\")) with 1. change (length (lit "{")) with 1. change (length (lit "}")) with 1.
    unfold entry_max. lia.
  - destruct (dget special_font_chars w) as [x|] eqn:G2; [|lia].
    apply (dget_keys special_font_chars (fun k v => Nat.leb (length (sf_font_cmd v) + length (sf_letter v)) 20)) in G2; [|vm_compute; reflexivity].
    apply Nat.leb_le in G2. rewrite !app_length. change (length (lit "\")) with 1. change (length (lit "{")) with 1. change (length (lit "}")) with 1.
    unfold entry_max. lia.
Qed.
Lemma symbol_length ts w : incl ts [all_math_symbols_by_char; all_math_symbols_by_glyph; all_math_operators_by_char;
    all_math_operators_by_glyph; math_number_by_glyph] -> length (symbol ts w) <= entry_max + length w.
Proof.
  intro I. unfold symbol. destruct (first_entry ts w) as [s|] eqn:E; [|apply accent_length].
  pose proof (first_entry_length _ _ _ I E). lia.
Qed.
Lemma in_commands_length cmds s : length (in_commands cmds s) = length s + list_sum (map (fun c => length (lit c) + 2) cmds).
Proof.
  induction cmds as [|c cmds IH]; cbn [in_commands map list_sum fold_right]; [lia|]. rewrite !app_length, IH.
  change (length (lit "{")) with 1. change (length (lit "}")) with 1. unfold list_sum. lia.
Qed.
Lemma variant_short l d v : (forall e, In e l -> list_sum (map (fun c => length (lit c) + 2) (snd e)) <= 30) ->
  list_sum (map (fun c => length (lit c) + 2) d) <= 30 ->
  list_sum (map (fun c => length (lit c) + 2) (variant_lookup l d v)) <= 30.
Proof.
  intros H D. induction l as [|[k c] l IH]; auto. cbn [variant_lookup]. destruct (str_eqb v (lit k)).
  - apply (H (k, c)). cbn; auto.
  - apply IH. intros e I. apply H. cbn; auto.
Qed.
Lemma forallb_le {A} (f : A -> nat) n l : forallb (fun x => Nat.leb (f x) n) l = true -> forall x, In x l -> f x <= n.
Proof. intros H x I. rewrite forallb_forall in H. apply Nat.leb_le. auto. Qed.
Lemma mi_variant_short v : list_sum (map (fun c => length (lit c) + 2) (variant_lookup mi_variants [] v)) <= 30.
Proof. apply variant_short; [|cbn; lia]. apply forallb_le. vm_compute. reflexivity. Qed.
Lemma mtext_variant_short v : list_sum (map (fun c => length (lit c) + 2) (variant_lookup mtext_variants ["\text"] v)) <= 30.
Proof. apply variant_short; [|vm_compute; lia]. apply forallb_le. vm_compute. reflexivity. Qed.
Lemma mi_latex_length v a : length (mi_latex v a) <= 64 + length v.
Proof.
  unfold mi_latex. rewrite in_commands_length. pose proof (mi_variant_short (attr a "mathvariant")).
  pose proof (symbol_length mi_tables (squeeze v)) as S. pose proof (squeeze_length v). unfold entry_max in *.
  assert (length (symbol mi_tables (squeeze v)) <= 34 + length (squeeze v)); [|lia]. apply S. intros x I. cbn in *. tauto.
Qed.
Lemma mo_latex_length v : length (mo_latex v) <= 64 + length v.
Proof.
  unfold mo_latex. pose proof (symbol_length mo_tables (squeeze v)) as S. pose proof (squeeze_length v). unfold entry_max in *.
  assert (length (symbol mo_tables (squeeze v)) <= 34 + length (squeeze v)); [|lia]. apply S. intros x I. cbn in *. tauto.
Qed.
Lemma mn_latex_length v : length (mn_latex v) <= 64 + length v.
Proof.
  unfold mn_latex. pose proof (squeeze_length v). destruct (first_entry [math_number_by_glyph] (squeeze v)) as [s|] eqn:E; [|lia].
  apply first_entry_length in E; [unfold entry_max in E; lia|]. intros x I. cbn in *. tauto.
Qed.
Lemma mtext_latex_length v a : length (mtext_latex v a) <= 65 * length v.
Proof.
  unfold mtext_latex. pose proof (runs_kinds v) as K. rewrite <- (runs_concat v) at 2.
  induction (text_runs v) as [|[b w] rs IH]; cbn [map concat snd fst]; [cbn; lia|].
  rewrite !app_length. assert (IH' : length (concat (map (fun run : bool * str => if fst run then in_commands (variant_lookup mtext_variants ["\text"] (attr a "mathvariant")) (snd run) else mi_latex (snd run) []) rs)) <= 65 * length (concat (map snd rs))).
  { apply IH. intros b' w' I. apply K. cbn; auto. }
  specialize (K b w (or_introl eq_refl)). destruct b.
  - rewrite in_commands_length. pose proof (mtext_variant_short (attr a "mathvariant")). destruct K as [N _]. destruct w; [congruence|]. cbn [length]. lia.
  - destruct K as (c & -> & _). pose proof (mi_latex_length [c] []). cbn [length] in *. lia.
Qed.

Lemma fence_length ss : forall seps, length (fence_join (map (fun c => [c]) seps) ss) <= total 1 ss.
Proof.
  induction ss as [|s ss IH]; intro seps; [cbn; lia|]. rewrite total_cons.
  destruct ss as [|s2 ss]; [rewrite total_nil; destruct seps; cbn [fence_join map]; lia|].
  destruct seps as [|c [|c2 seps]]; cbn [map fence_join]; rewrite !app_length.
  - change (length (lit ",")) with 1. specialize (IH []). cbn [map] in IH. cbn [fence_join] in *. lia.
  - specialize (IH [c]). cbn [map] in IH. cbn [length] in *. cbn [fence_join] in *. lia.
  - specialize (IH (c2 :: seps)). cbn [map] in IH. cbn [length] in *. cbn [fence_join] in *. lia.
Qed.

(** Weights: a bound of the outcome of each child, with room for a separator. *)
Definition weighs (r : res str) (w : nat) : Prop := forall s, r = Ok s -> length s + 20 <= w.
Lemma weights_sum rs ws : Forall2 weighs rs ws -> forall ss, rseq rs = Ok ss -> total 20 ss <= list_sum ws.
Proof.
  induction 1 as [|r w rs ws H F IH]; intros ss E; cbn [rseq] in E.
  - injection E as <-. cbn. lia.
  - destruct r as [s|]; [|discriminate]. cbn [rbind] in E. destruct (rseq rs) as [ss'|]; [|discriminate]. injection E as <-.
    specialize (IH ss' eq_refl). specialize (H s eq_refl). rewrite total_cons, list_sum_cons. lia.
Qed.
Lemma join_bound sep rs ws ss : length sep <= 20 -> Forall2 weighs rs ws -> rseq rs = Ok ss -> length (join sep ss) <= list_sum ws.
Proof.
  intros L F E. pose proof (weights_sum _ _ F _ E) as S. pose proof (join_length1 sep ss) as J.
  pose proof (total_mono _ _ ss L). lia.
Qed.
Lemma concat_bound rs ws ss : Forall2 weighs rs ws -> rseq rs = Ok ss -> length (concat ss) <= list_sum ws.
Proof.
  intros F E. pose proof (weights_sum _ _ F _ E) as S.
  assert (M : length (concat ss) <= total 20 ss); [|lia].
  clear. induction ss as [|s ss IH]; [cbn; lia|]. rewrite total_cons. cbn [concat]. rewrite app_length. lia.
Qed.
Lemma fence_bound seps rs ws ss : Forall2 weighs rs ws -> rseq rs = Ok ss ->
  length (fence_join (map (fun c => [c]) seps) ss) <= list_sum ws.
Proof.
  intros F E. pose proof (weights_sum _ _ F _ E) as S. pose proof (fence_length ss seps) as J.
  pose proof (total_mono 1 20 ss ltac:(lia)). lia.
Qed.
Lemma weigh_nth rs ws i s : Forall2 weighs rs ws -> nth_error rs i = Some (Ok s) -> length s + 20 <= nth i ws 0.
Proof.
  intro F. revert i. induction F as [|r w rs ws H F IH]; intros [|i] E; cbn in *; try discriminate; auto.
  injection E as ->. apply H. auto.
Qed.

Ltac lens := repeat match goal with
  | |- context [length (lit ?x)] => let n := eval vm_compute in (length (lit x)) in change (length (lit x)) with n
  | H : context [length (lit ?x)] |- _ => let n := eval vm_compute in (length (lit x)) in change (length (lit x)) with n in H
  end; try change (length nl) with 1 in *.
Lemma enclosed_length n s : length (enclosed n s) <= length s + 30.
Proof.
  unfold enclosed.
  assert (H : length (lit (fst (notation_lookup notations n))) + length (lit (snd (notation_lookup notations n))) <= 30).
  { assert (X : forall e, In e notations -> length (lit (fst (snd e))) + length (lit (snd (snd e))) <= 30).
    { apply forallb_le. vm_compute. reflexivity. }
    revert X. generalize notations as l. induction l as [|[k p] l IH]; intro X; cbn [notation_lookup].
    - vm_compute. lia.
    - destruct (str_eqb n (lit k)); [apply (X (k, p)); cbn; auto|]. apply IH. intros e I. apply X. cbn; auto. }
  destruct (notation_lookup notations n) as [b a]. cbn [fst snd] in H. rewrite !app_length. lia.
Qed.
Lemma paren_length s : length (paren_if_long s) <= length s + 20.
Proof. unfold paren_if_long. destruct (Nat.ltb 1 (length s)); rewrite ?app_length; lens; lia. Qed.
Lemma paren_space_length s : length (paren_if_space s) <= length s + 20.
Proof. unfold paren_if_space. destruct (existsb is_space s); rewrite ?app_length; lens; lia. Qed.
Lemma base_length b s : length (base_latex b s) <= length s + 20.
Proof. unfold base_latex. destruct (_ && _); rewrite ?app_length; lens; lia. Qed.
Lemma default_length s d : length (default s d) <= length s + length (lit d).
Proof. unfold default. destruct s; cbn [truthy]; cbn [length]; lia. Qed.
Lemma env_length e s : length (env e s) = length s + 2 * length (lit e) + 14.
Proof. unfold env. rewrite !app_length. lens. lia. Qed.
Lemma fence_env_length op cl : length (lit (fence_env op cl)) <= 7.
Proof.
  unfold fence_env. repeat match goal with |- context [if ?b then _ else _] => destruct b end; vm_compute; lia.
Qed.
Lemma fenced_matrix_length op cl ss : length (fenced_matrix op cl ss) <= length op + length cl + length (concat ss) + 45.
Proof.
  unfold fenced_matrix. pose proof (fence_env_length op cl). destruct (String.eqb _ _); rewrite ?app_length, env_length, ?app_length; lens; lia.
Qed.

Lemma ok_inj {A} (x y : A) : Ok x = Ok y -> x = y.
Proof. congruence. Qed.
Ltac sumw := cbn [list_sum fold_right] in *; unfold list_sum in *.
Lemma node_size inside n v kids a ws out : Forall2 weighs (map snd kids) ws ->
  node inside n v kids a = Ok out ->
  length out + 20 <= 100 * (1 + length v + attribute_chars a) + list_sum ws.
Proof.
  intros F E. pose proof (Forall2_len _ _ _ F) as LW. unfold node in E.
  pose proof (attr_chars2 a "open" "close" ltac:(discriminate)) as OC.
  pose proof (mi_latex_length v a). pose proof (mo_latex_length v). pose proof (mn_latex_length v). pose proof (mtext_latex_length v a).
  destruct (tag_of n) eqn:Tg.
  (* math *)
  - destruct (rseq (map snd kids)) as [ss|] eqn:R; [|discriminate]. apply ok_inj in E; subst out. pose proof (squeeze_length (join (lit " ") ss)).
    pose proof (join_bound (lit " ") _ _ _ ltac:(vm_compute; lia) F R). lia.
  - apply ok_inj in E; subst out. lia.
  - apply ok_inj in E; subst out. lia.
  - apply ok_inj in E; subst out. lia.
  - apply ok_inj in E; subst out. lia.
  - destruct (rseq (map snd kids)) as [ss|] eqn:R; [|discriminate]. apply ok_inj in E; subst out.
    pose proof (join_bound (lit " ") _ _ _ ltac:(vm_compute; lia) F R). unfold braced. rewrite !app_length. lens. lia.
  (* mfenced *)
  - destruct (rseq (map snd kids)) as [ss|] eqn:R; [|discriminate]. apply ok_inj in E; subst out.
    destruct (existsb has_table (map fst kids)).
    + pose proof (fenced_matrix_length (attr a "open") (attr a "close") ss). pose proof (concat_bound _ _ _ F R). lia.
    + pose proof (fence_bound (attr a "separators") _ _ _ F R). rewrite !app_length.
      pose proof (default_length (attr a "open") "("). pose proof (default_length (attr a "close") ")"). lens. lia.
  (* mfrac *)
  - destruct (map snd kids) as [|r1 [|r2 [|]]]; try discriminate. destruct r1 as [s1|]; [|discriminate]. destruct r2 as [s2|]; [|discriminate].
    pose proof (weigh_nth _ _ 0 s1 F eq_refl). pose proof (weigh_nth _ _ 1 s2 F eq_refl).
    destruct ws as [|w1 [|w2 [|]]]; try discriminate LW. cbn [nth] in *. sumw. cbn [rbind] in E.
    pose proof (paren_length s1). pose proof (paren_length s2).
    destruct (truthy (attr a "bevelled")); apply ok_inj in E; subst out; unfold braced; rewrite !app_length; lens; lia.
  - destruct (map snd kids) as [|r1 [|r2 [|]]]; try discriminate. destruct r1 as [s1|]; [|discriminate]. destruct r2 as [s2|]; [|discriminate].
    pose proof (weigh_nth _ _ 0 s1 F eq_refl). pose proof (weigh_nth _ _ 1 s2 F eq_refl).
    destruct ws as [|w1 [|w2 [|]]]; try discriminate LW. cbn [nth] in *. sumw. cbn [rbind] in E.
    apply ok_inj in E; subst out; unfold braced; rewrite !app_length; lens; lia.
  (* maction *)
  - destruct (_ && _).
    + destruct (map snd kids) as [|r1 rs]; [discriminate|]. subst r1. pose proof (weigh_nth _ _ 0 out F eq_refl).
      destruct ws as [|w1 ws]; [discriminate LW|]. cbn [nth] in *. sumw. lia.
    + destruct (rseq (map snd kids)) as [ss|] eqn:R; [|discriminate]. apply ok_inj in E; subst out.
      pose proof (join_bound (lit " \Longrightarrow ") _ _ _ ltac:(vm_compute; lia) F R). lia.
  (* menclose *)
  - destruct (rseq (map snd kids)) as [ss|] eqn:R; [|discriminate]. apply ok_inj in E; subst out.
    pose proof (join_bound (lit " ") _ _ _ ltac:(vm_compute; lia) F R).
    pose proof (enclosed_length (dget_or a (lit "notation") (lit "longdiv")) (join (lit " ") ss)). lia.
  - destruct (rseq (map snd kids)) as [ss|] eqn:R; [|discriminate]. apply ok_inj in E; subst out.
    pose proof (join_bound (lit " ") _ _ _ ltac:(vm_compute; lia) F R). unfold braced. rewrite !app_length. lens. lia.
  - apply ok_inj in E; subst out. cbn [length]. lia.
  (* msup, msub *)
  - destruct kids as [|[b r1] [|[x r2] [|]]]; try discriminate. destruct r1 as [s1|]; [|discriminate]. destruct r2 as [s2|]; [|discriminate].
    cbn [map snd] in *. pose proof (weigh_nth _ _ 0 s1 F eq_refl). pose proof (weigh_nth _ _ 1 s2 F eq_refl).
    destruct ws as [|w1 [|w2 [|]]]; try discriminate LW. cbn [nth] in *. sumw. cbn [rbind] in E. pose proof (base_length b s1).
    apply ok_inj in E; subst out; unfold braced; rewrite !app_length; lens; lia.
  - destruct kids as [|[b r1] [|[x r2] [|]]]; try discriminate. destruct r1 as [s1|]; [|discriminate]. destruct r2 as [s2|]; [|discriminate].
    cbn [map snd] in *. pose proof (weigh_nth _ _ 0 s1 F eq_refl). pose proof (weigh_nth _ _ 1 s2 F eq_refl).
    destruct ws as [|w1 [|w2 [|]]]; try discriminate LW. cbn [nth] in *. sumw. cbn [rbind] in E. pose proof (base_length b s1).
    apply ok_inj in E; subst out; unfold braced; rewrite !app_length; lens; lia.
  - destruct kids as [|[b r1] [|[x r2] [|[y r3] [|]]]]; try discriminate. destruct r1 as [s1|]; [|discriminate]. destruct r2 as [s2|]; [|discriminate].
    destruct r3 as [s3|]; [|discriminate].
    cbn [map snd] in *. pose proof (weigh_nth _ _ 0 s1 F eq_refl). pose proof (weigh_nth _ _ 1 s2 F eq_refl). pose proof (weigh_nth _ _ 2 s3 F eq_refl).
    destruct ws as [|w1 [|w2 [|w3 [|]]]]; try discriminate LW. cbn [nth] in *. sumw. cbn [rbind] in E. pose proof (base_length b s1).
    apply ok_inj in E; subst out; unfold braced; rewrite !app_length; lens; lia.
  (* mmultiscripts *)
  - assert (K : length kids = length ws) by (rewrite map_length in LW; auto).
    destruct (Nat.ltb (length kids) 3) eqn:L3; [discriminate|]. apply Nat.ltb_ge in L3.
    assert (W : forall i s, i < length kids -> nth i (map snd kids) (Ok []) = Ok s -> length s + 20 <= nth i ws 0).
    { intros i s Hi Hn. apply (weigh_nth _ _ i s F). rewrite <- Hn. apply nth_error_nth'. rewrite map_length. auto. }
    remember (fun i => match nth_error kids i with Some (t, _) => str_eqb (t_name t) (lit "mprescripts") | None => false end) as isp eqn:Ip.
    cbv zeta in E.
    change (match nth_error kids 1 with Some (t, _) => str_eqb (t_name t) (lit "mprescripts") | None => false end) with
      ((fun i => match nth_error kids i with Some (t, _) => str_eqb (t_name t) (lit "mprescripts") | None => false end) 1) in E.
    change (match nth_error kids 3 with Some (t, _) => str_eqb (t_name t) (lit "mprescripts") | None => false end) with
      ((fun i => match nth_error kids i with Some (t, _) => str_eqb (t_name t) (lit "mprescripts") | None => false end) 3) in E.
    rewrite <- Ip in E. clear Ip.
    destruct (nth 0 (map snd kids) (Ok [])) as [sb|] eqn:N0; [|discriminate]. cbn [rbind] in E.
    pose proof (W 0 sb ltac:(lia) N0) as B0. pose proof (paren_space_length sb) as P0.
    assert (S6 : nth 0 ws 0 + nth 1 ws 0 + nth 2 ws 0 + nth 3 ws 0 + nth 4 ws 0 + nth 5 ws 0 <= list_sum ws).
    { clear. destruct ws as [|w0 [|w1 [|w2 [|w3 [|w4 [|w5 ws]]]]]]; cbn [nth]; sumw; lia. }
    destruct (isp 1).
    + destruct (Nat.leb_spec 4 (length kids)); cbn [andb] in E.
      * destruct (nth 2 (map snd kids) (Ok [])) as [s2|] eqn:N2; [|discriminate]. cbn [rbind] in E.
        destruct (nth 3 (map snd kids) (Ok [])) as [s3|] eqn:N3; [|discriminate]. cbn [rbind] in E. apply ok_inj in E; subst out.
        pose proof (W 2 s2 ltac:(lia) N2). pose proof (W 3 s3 ltac:(lia) N3). unfold braced. rewrite !app_length. lens. cbn [length]. lia.
      * destruct (isp 3); cbn [andb] in E; [replace (Nat.leb 6 (length kids)) with false in E by (symmetry; apply Nat.leb_gt; lia)|];
        cbn [rbind] in E; apply ok_inj in E; subst out; rewrite !app_length; cbn [length]; lia.
    + cbn [andb] in E. destruct (isp 3 && Nat.leb 6 (length kids)) eqn:P.
      * apply andb_true_iff in P as [_ P]. apply Nat.leb_le in P.
        destruct (nth 4 (map snd kids) (Ok [])) as [s4|] eqn:N4; [|discriminate]. cbn [rbind] in E.
        destruct (nth 5 (map snd kids) (Ok [])) as [s5|] eqn:N5; [|discriminate]. cbn [rbind] in E.
        destruct (nth 1 (map snd kids) (Ok [])) as [s1|] eqn:N1; [|discriminate]. cbn [rbind] in E.
        destruct (nth 2 (map snd kids) (Ok [])) as [s2|] eqn:N2; [|discriminate]. cbn [rbind] in E. apply ok_inj in E; subst out.
        pose proof (W 1 s1 ltac:(lia) N1). pose proof (W 2 s2 ltac:(lia) N2). pose proof (W 4 s4 ltac:(lia) N4). pose proof (W 5 s5 ltac:(lia) N5).
        unfold braced. rewrite !app_length. lens. lia.
      * cbn [rbind] in E. destruct (nth 1 (map snd kids) (Ok [])) as [s1|] eqn:N1; [|discriminate]. cbn [rbind] in E.
        destruct (nth 2 (map snd kids) (Ok [])) as [s2|] eqn:N2; [|discriminate]. cbn [rbind] in E. apply ok_inj in E; subst out.
        pose proof (W 1 s1 ltac:(lia) N1). pose proof (W 2 s2 ltac:(lia) N2). unfold braced. rewrite !app_length. lens. cbn [length]. lia.
  (* munderover *)
  - destruct (map snd kids) as [|r1 [|r2 [|r3 [|]]]]; try discriminate. destruct r1 as [s1|]; [|discriminate]. destruct r2 as [s2|]; [|discriminate].
    destruct r3 as [s3|]; [|discriminate].
    pose proof (weigh_nth _ _ 0 s1 F eq_refl). pose proof (weigh_nth _ _ 1 s2 F eq_refl). pose proof (weigh_nth _ _ 2 s3 F eq_refl).
    destruct ws as [|w1 [|w2 [|w3 [|]]]]; try discriminate LW. cbn [nth] in *. sumw. cbn [rbind] in E.
    apply ok_inj in E; subst out; unfold braced; rewrite !app_length; lens; lia.
  - destruct (map snd kids) as [|r1 [|r2 [|]]]; try discriminate. destruct r1 as [s1|]; [|discriminate]. destruct r2 as [s2|]; [|discriminate].
    pose proof (weigh_nth _ _ 0 s1 F eq_refl). pose proof (weigh_nth _ _ 1 s2 F eq_refl).
    destruct ws as [|w1 [|w2 [|]]]; try discriminate LW. cbn [nth] in *. sumw. cbn [rbind] in E.
    destruct (str_in s2 _); apply ok_inj in E; subst out; unfold braced; rewrite !app_length; lens; lia.
  - destruct (map snd kids) as [|r1 [|r2 [|]]]; try discriminate. destruct r1 as [s1|]; [|discriminate]. destruct r2 as [s2|]; [|discriminate].
    pose proof (weigh_nth _ _ 0 s1 F eq_refl). pose proof (weigh_nth _ _ 1 s2 F eq_refl).
    destruct ws as [|w1 [|w2 [|]]]; try discriminate LW. cbn [nth] in *. sumw. cbn [rbind] in E.
    destruct (str_in s2 _); apply ok_inj in E; subst out; unfold braced; rewrite !app_length; lens; lia.
  (* mtable *)
  - destruct (rseq (map snd kids)) as [ss|] eqn:R; [|discriminate]. cbn [rbind] in E. apply ok_inj in E; subst out.
    pose proof (join_bound (lit " \\" ++ nl) _ _ _ ltac:(vm_compute; lia) F R).
    destruct (inside || _); rewrite ?env_length; lens; lia.
  - destruct (rseq (map snd kids)) as [ss|] eqn:R; [|discriminate]. apply ok_inj in E; subst out.
    pose proof (join_bound (lit " & ") _ _ _ ltac:(vm_compute; lia) F R). lia.
  - destruct (rseq (map snd kids)) as [ss|] eqn:R; [|discriminate]. apply ok_inj in E; subst out.
    pose proof (join_bound (lit " ") _ _ _ ltac:(vm_compute; lia) F R). lia.
Qed.

Lemma render_size t : forall inside s, render inside t = Ok s -> length s + 20 <= 100 * size t.
Proof.
  induction t as [n v ch a IH] using tree_ind'. intros inside s E. cbn [render size] in *.
  apply (node_size inside n v _ a (map (fun c => 100 * size c) ch)) in E.
  - assert (M : list_sum (map (fun c => 100 * size c) ch) = 100 * list_sum (map size ch)).
    { clear. induction ch as [|c ch IH]; auto. cbn [map list_sum fold_right]. unfold list_sum in *. lia. }
    lia.
  - rewrite map_map. cbn [snd]. clear E. induction IH as [|c ch H _ IHl]; cbn [map]; constructor; auto.
    intros x Ex. eapply H; eauto.
Qed.
Lemma latex_size t s : latex_of t = Ok s -> length s <= 100 * size t.
Proof. rewrite latex_of_render. intro E. apply render_size in E. lia. Qed.

(** ** Documents *)
Lemma list_max_cons x l : list_max (x :: l) = Nat.max x (list_max l).
Proof. reflexivity. Qed.
Lemma list_sum_app_nat l l' : list_sum (l ++ l') = list_sum l + list_sum l'.
Proof. apply list_sum_app. Qed.
Definition math_size (ts : list tree) : nat := list_sum (map size (filter (named "math") ts)).
Lemma math_size_app l l' : math_size (l ++ l') = math_size l + math_size l'.
Proof. unfold math_size. rewrite filter_app, map_app, list_sum_app. auto. Qed.
Lemma math_size_preorder t : math_size (preorder t) <= math_depth t * size t.
Proof.
  induction t as [n v ch a IH] using tree_ind'. cbn [preorder math_depth].
  change (T n v ch a :: flat_map preorder ch) with ([T n v ch a] ++ flat_map preorder ch). rewrite math_size_app.
  assert (L : math_size (flat_map preorder ch) <= list_max (map math_depth ch) * list_sum (map size ch)).
  { induction IH as [|c ch H _ IHl]; [cbn; lia|]. cbn [flat_map map]. rewrite math_size_app, list_max_cons, list_sum_cons. nia. }
  assert (X : list_sum (map size ch) <= size (T n v ch a)) by (cbn [size]; lia).
  assert (Y : math_size [T n v ch a] = (if str_eqb n (lit "math") then 1 else 0) * size (T n v ch a)).
  { unfold math_size. cbn [filter]. unfold named. cbn [t_name]. destruct (str_eqb n (lit "math")); cbn [map list_sum fold_right]; lia. }
  rewrite Y. nia.
Qed.
Lemma math_size_forest ts : math_size (flat_map preorder ts) <= list_max (map math_depth ts) * list_sum (map size ts).
Proof.
  induction ts as [|t ts IH]; [cbn; lia|]. cbn [flat_map map]. rewrite math_size_app, list_max_cons, list_sum_cons.
  pose proof (math_size_preorder t). nia.
Qed.
Lemma rseq_latex_size ts : forall ss, rseq (map latex_of ts) = Ok ss -> length (concat ss) <= 100 * list_sum (map size ts).
Proof.
  induction ts as [|t ts IH]; intros ss E; cbn [map rseq] in E.
  - apply ok_inj in E. subst ss. cbn. lia.
  - destruct (latex_of t) as [s|] eqn:L; [|discriminate]. cbn [rbind] in E. destruct (rseq (map latex_of ts)) as [ss'|]; [|discriminate].
    cbn [rbind] in E. apply ok_inj in E. subst ss. cbn [concat map]. rewrite app_length, list_sum_cons.
    specialize (IH ss' eq_refl). apply latex_size in L. lia.
Qed.
Lemma document_latex_size d s : document_latex d = Ok s -> length s <= 100 * (document_math_depth d * document_size d).
Proof.
  unfold document_latex. intro E. destruct (rseq (map latex_of (math_trees d))) as [ss|] eqn:R; [|discriminate].
  cbn [rbind] in E. apply ok_inj in E. subst s. apply rseq_latex_size in R.
  pose proof (math_size_forest (document_trees d)) as M. unfold math_size in M.
  unfold math_trees in R. unfold document_math_depth, document_size, document_trees in *. lia.
Qed.
Lemma convert_size wc ps xml d h s : read_as ps xml d -> snd (mathml_to_latex wc ps xml h) = Ok s ->
  length s <= 100 * (document_math_depth d * document_size d).
Proof. intros R. rewrite (convert_read_snd wc ps xml d h R). apply document_latex_size. Qed.

(** Nested math elements around one long number. *)
Definition long_number (k : nat) : str := repeat 49%N k.
Fixpoint math_tower (k : nat) (n : dnode) : dnode :=
  match k with O => n | S k' => DElem (lit "math") [] [math_tower k' n] end.
Definition tower (k : nat) : document := [math_tower (S k) (DElem (lit "mn") [] [DText (long_number (S k))])].
Lemma long_number_word k : word (long_number (S k)).
Proof.
  split; [discriminate|]. intros c I. apply repeat_spec in I. subst c. reflexivity.
Qed.
Lemma long_number_squeeze k : squeeze (long_number (S k)) = long_number (S k).
Proof. unfold squeeze. rewrite words_word_id by apply long_number_word. reflexivity. Qed.
Definition number_tree (k : nat) : tree := T (lit "mn") (long_number (S k)) [] [].
Fixpoint tower_tree (j : nat) (t : tree) : tree :=
  match j with O => t | S j' => T (lit "math") [] [tower_tree j' t] [] end.
Lemma math_tower_tree j k : tree_of_node (math_tower j (DElem (lit "mn") [] [DText (long_number (S k))])) = [tower_tree j (number_tree k)].
Proof.
  induction j as [|j IH].
  - cbn [math_tower tree_of_node flat_map app]. unfold number_tree, text_of. cbn [existsb is_elem_node node_value orb].
    rewrite <- (long_number_squeeze k), strip_squeeze. reflexivity.
  - cbn [math_tower tree_of_node flat_map app]. rewrite IH. cbn [tower_tree].
    replace (text_of [math_tower j (DElem (lit "mn") [] [DText (long_number (S k))])]) with (@nil N); [reflexivity|].
    destruct j; reflexivity.
Qed.
Lemma tower_latex j k : latex_of (tower_tree j (number_tree k)) = Ok (long_number (S k)).
Proof.
  induction j as [|j IH].
  - cbn [tower_tree]. unfold number_tree. rewrite mn_latex_of, mn_ascii, long_number_squeeze; auto.
    intros c I. apply repeat_spec in I. subst c. reflexivity.
  - cbn [tower_tree]. rewrite latex_node' by reflexivity. unfold node. change (tag_of (lit "math")) with TagMath. cbn [map snd rseq].
    rewrite IH. cbn [rbind join]. rewrite long_number_squeeze. reflexivity.
Qed.
Lemma tower_maths j k : map latex_of (filter (named "math") (preorder (tower_tree j (number_tree k)))) = repeat (Ok (long_number (S k))) j.
Proof.
  induction j as [|j IH]; [reflexivity|].
  change (preorder (tower_tree (S j) (number_tree k))) with (tower_tree (S j) (number_tree k) :: preorder (tower_tree j (number_tree k)) ++ []).
  rewrite app_nil_r. change (filter (named "math") (tower_tree (S j) (number_tree k) :: preorder (tower_tree j (number_tree k))))
    with (tower_tree (S j) (number_tree k) :: filter (named "math") (preorder (tower_tree j (number_tree k)))).
  cbn [map repeat]. rewrite IH, tower_latex. reflexivity.
Qed.
Lemma tower_tree_size j k : size (tower_tree j (number_tree k)) = j + 2 + k.
Proof.
  induction j as [|j IH].
  - cbn. rewrite repeat_length. unfold attribute_chars. cbn. lia.
  - cbn [tower_tree size map]. rewrite list_sum_cons, IH. unfold attribute_chars. cbn. lia.
Qed.
Lemma rseq_repeat {A} (x : A) j : rseq (repeat (Ok x) j) = Ok (repeat x j).
Proof. induction j as [|j IH]; auto. cbn [repeat rseq]. rewrite IH. reflexivity. Qed.
Lemma concat_repeat_length {A} (l : list A) j : length (concat (repeat l j)) = j * length l.
Proof. induction j as [|j IH]; auto. cbn [repeat concat]. rewrite app_length, IH. lia. Qed.
Lemma tower_document k : exists s, document_latex (tower k) = Ok s /\ length s = S k * S k /\ document_size (tower k) = 2 * k + 3.
Proof.
  unfold document_latex, math_trees, document_size, document_trees, tower. cbn [flat_map]. rewrite math_tower_tree.
  change ([tower_tree (S k) (number_tree k)] ++ []) with [tower_tree (S k) (number_tree k)]. cbn [flat_map]. rewrite app_nil_r.
  rewrite tower_maths, rseq_repeat. eexists. split; [reflexivity|]. split.
  - pose proof (concat_repeat_length (long_number (S k)) (S k)) as C. cbv delta [str] in *. rewrite C. unfold long_number. rewrite repeat_length. auto.
  - cbn [map]. rewrite list_sum_cons, tower_tree_size. cbn. lia.
Qed.
Lemma not_linear c : exists d s, document_latex d = Ok s /\ c * document_size d < length s.
Proof.
  destruct (tower_document (4 * c + 4)) as (s & E & L & Z). exists (tower (4 * c + 4)), s. split; auto. rewrite L, Z. nia.
Qed.
