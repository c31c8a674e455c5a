(** Clean-up and recovery: the regex substitutions as deletions. *)
From Coq Require Import String.
From Verif Require Export LemBase LemRegex SpecDoc.
Local Open Scope string_scope.
Local Open Scope list_scope.

Lemma attempt_false total r s : attempt total false r s = m_regex total r s [] (fun s1 g => Some (s1, g)).
Proof. reflexivity. Qed.

(** ** Clean-up *)
Definition break_here (s : str) : nat :=
  match s with
  | c :: s' => if N.eqb c 10 then 1
               else if N.eqb c 13 then match s' with d :: _ => if N.eqb d 10 then 2 else 1 | [] => 1 end
               else 0
  | [] => 0
  end.
Lemma deleting_breaks n : forall s, length s <= n -> deleting break_here 0 s = no_line_breaks s.
Proof.
  induction n as [|n IH]; intros [|c s] L; auto; [cbn in L; lia|]. cbn in L.
  cbn [deleting no_line_breaks filter]. unfold break_here at 1, line_break at 1.
  destruct (N.eqb c 10); [apply IH; lia|]. destruct (N.eqb c 13); cbn [orb negb].
  - destruct s as [|d s]; auto. destruct (N.eqb d 10) eqn:D; [|apply IH; cbn in *; lia].
    cbn [deleting filter]. unfold line_break at 1. rewrite D. cbn [orb negb]. apply IH; cbn in L; lia.
  - f_equal. apply IH; lia.
Qed.
Lemma remove_line_breaks_spec s : remove_line_breaks s = no_line_breaks s.
Proof.
  unfold remove_line_breaks. rewrite (re_sub_deleting _ break_here).
  - apply (deleting_breaks (length s)); auto.
  - intros total [|c s0] H; [cbn in H; lia|]. rewrite attempt_false. cbn [m_regex line_break_pattern RLit].
    unfold break_here in *. rewrite (N.eqb_sym 10 c), (N.eqb_sym 13 c).
    destruct (N.eqb c 10); [cbn; split; [lia|eauto]|]. destruct (N.eqb c 13); [|lia].
    destruct s0 as [|d s0]; [cbn; split; [lia|eauto]|]. rewrite (N.eqb_sym 10 d).
    destruct (N.eqb d 10); cbn; split; try lia; eauto.
  - intros total [|c s0] H; [left; reflexivity|]. left. rewrite attempt_false. cbn [m_regex line_break_pattern RLit].
    unfold break_here in *. rewrite (N.eqb_sym 10 c), (N.eqb_sym 13 c).
    destruct (N.eqb c 10); [discriminate|]. destruct (N.eqb c 13); auto.
    destruct s0 as [|d s0]; [discriminate|]. destruct (N.eqb d 10); discriminate.
Qed.
Lemma remove_prefixes_spec s : remove_ms_word_prefixes s = without (lit "mml:") s.
Proof.
  unfold remove_ms_word_prefixes, without. apply re_sub_deleting.
  - intros total s0 H. rewrite attempt_false, m_lit. destruct (after (lit "mml:") s0) as [s1|] eqn:E; [|lia].
    apply after_some in E. subst. split; [rewrite app_length; cbn; lia|]. exists []. reflexivity.
  - intros total s0 H. left. rewrite attempt_false, m_lit. destruct (after (lit "mml:") s0); auto. discriminate.
Qed.
Lemma clean_spec xml : remove_ms_word_prefixes (remove_line_breaks xml) = clean xml.
Proof. rewrite remove_line_breaks_spec, remove_prefixes_spec. reflexivity. Qed.

(** ** Missing attribute values *)
Lemma m_unquoted {R} total n s g (k : str -> caps -> option R) :
  m_regex total (RNotAhead (RGroup n (RChar is_quote))) s g k = if quote_first s then None else k s g.
Proof.
  cbn [m_regex]. destruct s as [|c s]; auto. unfold quote_first. fold (is_quote c).
  destruct (is_quote c); reflexivity.
Qed.
Lemma after_app_eq w c s : after (w ++ [c]) s =
  match after w s with Some (d :: s1) => if N.eqb c d then Some s1 else None | _ => None end.
Proof.
  revert s. induction w as [|x w IH]; intro s; cbn.
  - destruct s as [|d s]; auto.
  - destruct s as [|d s]; auto. destruct (N.eqb x d); auto.
Qed.

Lemma consumed_app p s : consumed (p ++ s) s = p.
Proof.
  unfold consumed. rewrite app_length. replace (length p + length s - length s) with (length p + 0) by lia.
  rewrite firstn_app_2. cbn. apply app_nil_r.
Qed.
Lemma missing_attempt total must w s :
  exists g1 g3,
  attempt total must (missing_value_pattern w) s =
  match after w s with
  | None => None
  | Some rest =>
      match (match rest with
             | c :: rest1 => if N.eqb 61 c then if quote_first rest1 then None else Some (rest1, g1) else None
             | [] => None
             end) with
      | Some x => Some x
      | None => if quote_first rest then None
                else if must && Nat.eqb (length rest) (length s) then None else Some (rest, g3)
      end
  end.
Proof.
  unfold attempt, missing_value_pattern.
  destruct (after w s) as [rest|] eqn:E.
  - apply after_some in E as Es.
    exists [(1, consumed s (skipn 1 rest))], [(3, consumed s rest)].
    cbn [m_regex]. rewrite !m_lit, E.
    assert (L : forall c rest1, rest = c :: rest1 -> Nat.eqb (length rest1) (length s) = false).
    { intros c rest1 ->. subst s. rewrite app_length. cbn. apply Nat.eqb_neq. lia. }
    destruct rest as [|c rest1].
    + cbn. destruct must; cbn; auto.
    + destruct (N.eqb 61 c); cbn [skipn].
      * destruct rest1 as [|d rest2]; cbn [quote_first].
        { rewrite (L _ _ eq_refl). rewrite andb_false_r. reflexivity. }
        fold (is_quote d). destruct (is_quote d); cbn iota beta.
        -- fold (is_quote c). destruct (is_quote c); cbn iota; auto.
        -- rewrite (L _ _ eq_refl), andb_false_r. reflexivity.
      * cbn [quote_first]. fold (is_quote c). destruct (is_quote c); cbn iota; auto.
  - exists [], []. cbn [m_regex]. rewrite !m_lit, E. reflexivity.
Qed.
Lemma unvalued_after w s : unvalued w s =
  match after w s with
  | None => 0
  | Some rest => match rest with
                 | c :: rest1 => if N.eqb 61 c then if quote_first rest1 then length w else S (length w)
                                 else if quote_first rest then 0 else length w
                 | [] => length w
                 end
  end.
Proof.
  unfold unvalued. change (lit "=") with [61%N]. rewrite after_app_eq.
  destruct (after w s) as [[|c rest]|]; cbn [quote_first]; auto.
  destruct (N.eqb_spec 61 c) as [<-|N].
  - cbn. reflexivity.
  - reflexivity.
Qed.
Lemma strike_spec w s : re_sub (missing_value_pattern w) (fun _ => []) s = strike w s.
Proof.
  apply re_sub_deleting.
  - intros total s0 H. destruct (missing_attempt total false w s0) as (g1 & g3 & ->).
    rewrite unvalued_after in *. destruct (after w s0) as [rest|] eqn:E; [|lia]. apply after_some in E. subst s0.
    assert (X : skipn (length w) (w ++ rest) = rest) by (rewrite skipn_app, Nat.sub_diag, skipn_all; reflexivity).
    destruct rest as [|c rest].
    + rewrite app_nil_r in *. split; auto. cbn. rewrite skipn_all. eauto.
    + destruct (N.eqb_spec 61 c) as [<-|N].
      * destruct (quote_first rest).
        -- cbn [quote_first]. cbn [N.eqb Pos.eqb orb andb]. rewrite X. rewrite app_length. split; [lia|eauto].
        -- rewrite app_length. split; [cbn; lia|].
           replace (S (length w)) with (length w + 1) by lia. rewrite skipn_app, skipn_all2 by lia.
           replace (length w + 1 - length w) with 1 by lia. cbn. eauto.
      * destruct (quote_first (c :: rest)); [lia|]. cbn [andb]. rewrite X, app_length. split; [lia|eauto].
  - intros total s0 H. destruct (missing_attempt total false w s0) as (g1 & g3 & ->).
    destruct (missing_attempt total true w s0) as (g1' & g3' & ->).
    rewrite unvalued_after in *. destruct (after w s0) as [rest|] eqn:E; auto. apply after_some in E. subst s0.
    destruct rest as [|c rest].
    + destruct w; [|discriminate]. right. cbn. eauto.
    + destruct (N.eqb_spec 61 c) as [<-|N].
      * destruct (quote_first rest); [|discriminate]. destruct w; [|discriminate].
        right. cbn. rewrite Nat.eqb_refl. eauto.
      * destruct (quote_first (c :: rest)) eqn:Q; [left; auto|]. destruct w; [|discriminate]. right.
        cbn [app andb]. rewrite Nat.eqb_refl. eauto.
Qed.

(** ** The generic rule *)
Lemma split_last_some c s a b : split_last c s = Some (a, b) <-> s = a ++ c :: b /\ ~ In c b.
Proof.
  revert a b. induction s as [|x s IH]; intros a b; cbn.
  - split; [discriminate|]. intros [E _]. destruct a; discriminate.
  - destruct (split_last c s) as [[a' b']|] eqn:E.
    + destruct (proj1 (IH a' b') eq_refl) as [-> N]. split.
      * intro H; inversion H; subst. auto.
      * intros [H Nb]. destruct a as [|y a]; inversion H; subst.
        -- exfalso. apply Nb. apply in_app_iff. cbn. auto.
        -- f_equal. assert (X : Some (a', b') = Some (a, b)) by (apply IH; auto). inversion X; subst; auto.
    + destruct (N.eqb_spec x c) as [->|D].
      * split.
        -- intro H; inversion H; subst. split; auto. intro I. apply in_split in I as (u & v & ->).
           assert (X : forall u v, split_last c (u ++ c :: v) <> None).
           { clear. induction u as [|y u IHu]; intro v; cbn.
             - destruct (split_last c v) as [[]|]; [discriminate|]. rewrite N.eqb_refl. discriminate.
             - specialize (IHu v). destruct (split_last c (u ++ c :: v)) as [[]|]; congruence. }
           apply X in E. auto.
        -- intros [H Nb]. destruct a as [|y a]; inversion H; subst; auto.
           exfalso. assert (X : None = Some (a, b)) by (apply IH; auto). discriminate.
      * split; [discriminate|]. intros [H Nb]. destruct a as [|y a]; inversion H; subst; [congruence|].
        assert (X : None = Some (a, b)) by (apply IH; auto). discriminate.
Qed.
Lemma split_last_none c s : split_last c s = None <-> ~ In c s.
Proof.
  split.
  - intros E I. induction s as [|x s IH]; [destruct I|]. cbn in E. destruct (split_last c s) as [[]|]; [discriminate|].
    destruct I as [->|I]; [rewrite N.eqb_refl in E; discriminate|auto].
  - intro N. destruct (split_last c s) as [[a b]|] eqn:E; auto. apply split_last_some in E as [-> _].
    exfalso. apply N. apply in_app_iff. cbn; auto.
Qed.

Section Generic.
Variable wc : N -> bool.

(** The last part: greedily up to the last [>] of the line. *)
Lemma m_group4 total l rest g : ~ In 10%N l -> line_end rest ->
  m_regex total (RGroup 4 (RSeq (RStar RDot) (RChar (N.eqb 62)))) (l ++ rest) g (fun s1 g1 => Some (s1, g1)) =
  match split_last 62 l with
  | Some (_, tail) => Some (tail ++ rest, (4, consumed (l ++ rest) (tail ++ rest)) :: g)
  | None => None
  end.
Proof.
  intros N E.
  change (m_regex total (RStar RDot) (l ++ rest) g
            (fun s1 g1 => m_regex total (RChar (N.eqb 62)) s1 g1
               (fun s2 g2 => Some (s2, (4, consumed (l ++ rest) s2) :: g2))) =
    match split_last 62 l with
    | Some (_, tail) => Some (tail ++ rest, (4, consumed (l ++ rest) (tail ++ rest)) :: g)
    | None => None
    end).
  rewrite m_dots by auto. generalize (l ++ rest) as whole. intro whole.
  induction l as [|c l IH]; cbn [latest split_last].
  - destruct E as [->|[more ->]]; reflexivity.
  - rewrite IH by (intro; apply N; cbn; auto). destruct (split_last 62 l) as [[a b]|]; auto.
    cbn [m_regex app]. rewrite N.eqb_sym. destruct (N.eqb c 62); auto.
Qed.

(** The optional part never changes the end of the match, and sets neither group 1 nor group 3. *)
Definition opt_part := ROpt (RGroup 2 (RSeq (RPlus (RChar wc))
                             (RSeq (RChar (N.eqb 61)) (RNotAhead (RGroup 3 (RChar is_quote)))))).
Definition last_part := RGroup 4 (RSeq (RStar RDot) (RChar (N.eqb 62))).
Lemma line_suffix (l rest p s1 : str) : l ++ rest = p ++ s1 -> line_end rest -> ~ In 10%N l ->
  (~ In 10%N p \/ rest = []) -> exists l1, s1 = l1 ++ rest /\ l = p ++ l1.
Proof.
  intros E Le Nl C. revert p s1 E C. induction l as [|c l IH]; intros p s1 E C; cbn in E.
  - destruct p as [|d p]; [exists []; cbn in *; auto|]. exfalso. subst rest. destruct C as [C|C]; [|discriminate].
    destruct Le as [Le|[more Le]]; inversion Le; subst. apply C. cbn; auto.
  - destruct p as [|d p].
    + exists (c :: l). cbn in *. auto.
    + inversion E; subst. destruct (IH (fun I => Nl (or_intror I)) p s1 H1) as (l1 & -> & ->).
      * destruct C as [C|C]; auto. left. intro; apply C; cbn; auto.
      * exists l1. auto.
Qed.
Lemma m_opt_last total l rest g : ~ In 10%N l -> line_end rest -> (wc 10%N = false \/ rest = []) ->
  match split_last 62 l with
  | Some (_, tail) => exists g', m_regex total opt_part (l ++ rest) g
        (fun s1 g1 => m_regex total last_part s1 g1 (fun s2 g2 => Some (s2, g2))) = Some (tail ++ rest, g')
        /\ cap_get g' 1 = cap_get g 1 /\ cap_get g' 3 = cap_get g 3
  | None => m_regex total opt_part (l ++ rest) g
        (fun s1 g1 => m_regex total last_part s1 g1 (fun s2 g2 => Some (s2, g2))) = None
  end.
Proof.
  intros Nl Le C. unfold opt_part.
  set (k := fun s1 g1 => m_regex total last_part s1 g1 (fun s2 g2 => Some (s2, g2))).
  set (G := RGroup 2 _).
  change (m_regex total (ROpt G) (l ++ rest) g k) with
    (match m_regex total G (l ++ rest) g k with Some x => Some x | None => k (l ++ rest) g end).
  destruct (m_regex total G (l ++ rest) g k) as [[s1 g1]|] eqn:E.
  - apply m_some_step in E as (s2 & g2 & (p & new & E1 & -> & Cp & Gp) & K).
    assert (P10 : ~ In 10%N p \/ rest = []).
    { destruct C as [C|C]; auto. left. intro I. apply Cp in I. cbn in I. rewrite C in I. discriminate. }
    destruct (line_suffix _ _ _ _ E1 Le Nl P10) as (l1 & -> & ->).
    assert (Nl1 : ~ In 10%N l1) by (intro; apply Nl; apply in_app_iff; auto).
    unfold k, last_part in K. rewrite m_group4 in K by auto.
    destruct (split_last 62 l1) as [[a b]|] eqn:S; [|discriminate]. inversion K; subst.
    apply split_last_some in S as [-> Nb].
    replace (split_last 62 (p ++ a ++ 62%N :: b)) with (Some (p ++ a, b))
      by (symmetry; apply split_last_some; rewrite <- app_assoc; auto).
    eexists. split; [reflexivity|]. cbn [cap_get Nat.eqb].
    assert (X : forall n, n <> 2 -> cap_get (new ++ g) n = cap_get g n).
    { intros n Nn. clear -Gp Nn. induction new as [|[m t] new IH]; auto. cbn [app cap_get].
      destruct (Nat.eqb_spec n m) as [->|D].
      - exfalso. specialize (Gp m t (or_introl eq_refl)). cbn in Gp. destruct Gp as [Gp|[]]. congruence.
      - apply IH. intros; eapply Gp; right; eauto. }
    split; apply X; lia.
  - unfold k, last_part. rewrite m_group4 by auto.
    destruct (split_last 62 l) as [[a b]|]; auto. eexists. split; [reflexivity|]. auto.
Qed.

Lemma generic_attempt total l rest : ~ In 10%N l -> line_end rest -> (wc 10%N = false \/ rest = []) ->
  match l with
  | c :: l' =>
      match split_last 62 l' with
      | Some (before, tail) =>
          match split_last 32 before with
          | Some (a, _) => if N.eqb c 60 then
              exists g, attempt total false (generic_missing_pattern wc) (l ++ rest) = Some (tail ++ rest, g)
                        /\ expand_1_3 g = 60%N :: a ++ [32%N]
              else attempt total false (generic_missing_pattern wc) (l ++ rest) = None
          | None => attempt total false (generic_missing_pattern wc) (l ++ rest) = None
          end
      | None => attempt total false (generic_missing_pattern wc) (l ++ rest) = None
      end
  | [] => attempt total false (generic_missing_pattern wc) (l ++ rest) = None
  end.
Proof.
  intros Nl Le C. rewrite attempt_false.
  destruct l as [|c l].
  { destruct Le as [->|[more ->]]; reflexivity. }
  set (K := fun (whole s1 : str) => m_regex total (RChar (N.eqb 32)) s1 []
      (fun s2 g2 => m_regex total opt_part s2 ((1, consumed whole s2) :: g2)
         (fun s3 g3 => m_regex total last_part s3 g3 (fun s4 g4 => Some (s4, g4))))).
  assert (Ea : m_regex total (generic_missing_pattern wc) ((c :: l) ++ rest) [] (fun s1 g => Some (s1, g)) =
     if N.eqb 60 c then latest (K (c :: l ++ rest)) l rest else None).
  { unfold generic_missing_pattern. cbn [app].
    change (m_regex total (RSeq (RChar (N.eqb 60)) (RSeq (RStar RDot) (RChar (N.eqb 32)))) (c :: l ++ rest) []
      (fun s1 g1 => m_regex total opt_part s1 ((1, consumed (c :: l ++ rest) s1) :: g1)
         (fun s3 g3 => m_regex total last_part s3 g3 (fun s4 g4 => Some (s4, g4)))) =
      (if N.eqb 60 c then latest (K (c :: l ++ rest)) l rest else None)).
    cbn [m_regex]. destruct (N.eqb 60 c); auto.
    change (m_regex total (RStar RDot) (l ++ rest) [] (fun s1 g1 => m_regex total (RChar (N.eqb 32)) s1 g1
      (fun s1 g1 => m_regex total opt_part s1 ((1, consumed (c :: l ++ rest) s1) :: g1)
         (fun s3 g3 => m_regex total last_part s3 g3 (fun s4 g4 => Some (s4, g4))))) =
      latest (K (c :: l ++ rest)) l rest).
    rewrite m_dots; auto. intro; apply Nl; cbn; auto. }
  rewrite Ea. clear Ea. rewrite (N.eqb_sym 60 c).
  destruct (N.eqb_spec c 60) as [->|D].
  2:{ destruct (split_last 62 l) as [[before tail]|]; auto. destruct (split_last 32 before) as [[]|]; auto. }
  assert (Nl' : ~ In 10%N l) by (intro; apply Nl; cbn; auto). clear Nl.
  assert (X : forall l1 whole p, whole = p ++ l1 ++ rest -> ~ In 10%N l1 ->
    match split_last 62 l1 with
    | Some (before, tail) =>
        match split_last 32 before with
        | Some (a, _) => exists g, latest (K whole) l1 rest = Some (tail ++ rest, g) /\ expand_1_3 g = p ++ a ++ [32%N]
        | None => latest (K whole) l1 rest = None
        end
    | None => latest (K whole) l1 rest = None
    end).
  { induction l1 as [|d l1 IH]; intros whole p E N1; cbn [latest split_last].
    - unfold K. destruct Le as [->|[more ->]]; reflexivity.
    - assert (N2 : ~ In 10%N l1) by (intro; apply N1; cbn; auto).
      assert (E2 : whole = (p ++ [d]) ++ l1 ++ rest) by (rewrite <- app_assoc; auto).
      specialize (IH whole (p ++ [d]) E2 N2).
      pose proof (m_opt_last total l1 rest [(1, consumed whole (l1 ++ rest))] N2 Le C) as Q.
      assert (Kd : K whole ((d :: l1) ++ rest) = if N.eqb 32 d then m_regex total opt_part (l1 ++ rest) [(1, consumed whole (l1 ++ rest))]
         (fun s3 g3 => m_regex total last_part s3 g3 (fun s4 g4 => Some (s4, g4))) else None) by reflexivity.
      rewrite Kd. rewrite (N.eqb_sym 32 d).
      destruct (split_last 62 l1) as [[before tail]|].
      + cbn [split_last]. destruct (split_last 32 before) as [[a b]|].
        * destruct IH as (g & -> & Ex). exists g. split; auto. rewrite Ex, <- app_assoc. reflexivity.
        * rewrite IH. destruct (N.eqb_spec d 32) as [->|D]; auto.
          destruct Q as (g' & Q & Q1 & Q3). exists g'. split; auto. unfold expand_1_3. rewrite Q1, Q3.
          cbn [cap_get Nat.eqb]. rewrite E2, consumed_app, app_nil_r. reflexivity.
      + rewrite IH. destruct (N.eqb d 62); cbn [split_last]; destruct (N.eqb d 32); auto. }
  specialize (X l (60%N :: l ++ rest) [60%N] eq_refl Nl').
  exact X.
Qed.

Lemma cut_line_keep c l :
  match split_last 62 l with
  | Some (before, _) => match split_last 32 before with Some _ => N.eqb c 60 = false | None => True end
  | None => True
  end -> cut_line (c :: l) = c :: cut_line l.
Proof.
  unfold cut_line. cbn [split_last]. destruct (split_last 62 l) as [[before tail]|].
  - cbn [split_last]. destruct (split_last 32 before) as [[a b]|].
    + intro D. cbn [existsb]. rewrite N.eqb_sym, D. cbn [orb]. destruct (existsb _ a); auto.
    + intros _. destruct (N.eqb c 32); auto.
  - intros _. destruct (N.eqb c 62); auto.
Qed.
Lemma cut_line_no_gt l : ~ In 62%N l -> cut_line l = l.
Proof. intro N. unfold cut_line. apply split_last_none in N. rewrite N. auto. Qed.

Definition gsub total s := sub_from (2 * length s + 2) total false (generic_missing_pattern wc) expand_1_3 s.
Lemma gsub_line total l : forall rest, ~ In 10%N l -> line_end rest -> (wc 10%N = false \/ rest = []) ->
  gsub total (l ++ rest) = cut_line l ++ gsub total rest.
Proof.
  induction l as [|c l IH]; intros rest Nl Le C; auto.
  pose proof (generic_attempt total (c :: l) rest Nl Le C) as A. cbv beta iota in A.
  assert (Nl' : ~ In 10%N l) by (intro; apply Nl; cbn; auto).
  assert (Keep : attempt total false (generic_missing_pattern wc) ((c :: l) ++ rest) = None ->
    cut_line (c :: l) = c :: cut_line l -> gsub total ((c :: l) ++ rest) = cut_line (c :: l) ++ gsub total rest).
  { intros F ->. unfold gsub at 1. rewrite sub_step by lia. rewrite F. cbn [app].
    f_equal. exact (IH rest Nl' Le C). }
  revert A. destruct (split_last 62 l) as [[before tail]|] eqn:S1.
  - destruct (split_last 32 before) as [[a b]|] eqn:S2.
    + destruct (N.eqb_spec c 60) as [->|D]; intro A.
      * destruct A as (g & A & Ex). unfold gsub at 1. rewrite sub_step by lia. rewrite A, Ex.
        apply split_last_some in S1 as [S1 Nt].
        replace (Nat.eqb (length (tail ++ rest)) (length ((60%N :: l) ++ rest))) with false.
        2:{ symmetry. apply Nat.eqb_neq. rewrite S1. cbn. rewrite !app_length. cbn. lia. }
        fold (gsub total (tail ++ rest)).
        assert (Ht : gsub total (tail ++ rest) = tail ++ gsub total rest).
        { assert (Nn : ~ In 10%N tail) by (rewrite S1 in Nl'; intro; apply Nl'; apply in_app_iff; cbn; auto).
          clear -Nt Nn Le C. induction tail as [|d tail IHt]; auto.
          unfold gsub at 1. rewrite sub_step by lia.
          pose proof (generic_attempt total (d :: tail) rest Nn Le C) as A. cbn iota in A.
          assert (Nt' : ~ In 62%N tail) by (intro; apply Nt; cbn; auto).
          apply split_last_none in Nt' as Q. rewrite Q in A. rewrite A. cbn [app]. f_equal.
          apply IHt; auto. intro; apply Nn; cbn; auto. }
        rewrite Ht. unfold cut_line. cbn [split_last].
        replace (split_last 62 l) with (Some (before, tail)) by (symmetry; apply split_last_some; auto).
        cbn [split_last]. rewrite S2. cbn [existsb N.eqb Pos.eqb orb].
        cbn [app]. f_equal. rewrite <- !app_assoc. reflexivity.
      * apply Keep; auto. apply cut_line_keep. rewrite S1, S2. apply N.eqb_neq; auto.
    + intro A. apply Keep; auto. apply cut_line_keep. rewrite S1, S2. auto.
  - intro A. apply Keep; auto. apply cut_line_keep. rewrite S1. auto.
Qed.

Lemma split_on_spec c s : exists l rest, split_on c s = l :: rest /\ ~ In c l /\
  ((rest = [] /\ s = l) \/ exists s', s = l ++ c :: s' /\ rest = split_on c s').
Proof.
  induction s as [|x s (l & rest & E & N & H)]; cbn.
  - exists [], []. auto.
  - destruct (N.eqb_spec x c) as [->|D].
    + exists [], (split_on c s). repeat split; auto. right. exists s. auto.
    + rewrite E. exists (x :: l), rest. split; auto. split; [intros [?|?]; auto|].
      destruct H as [[-> ->]|(s' & -> & ->)]; [left|right; exists s']; auto.
Qed.
Lemma gsub_cut total n : forall s, length s <= n -> (wc 10%N = false \/ ~ In 10%N s) -> gsub total s = cut s.
Proof.
  induction n as [|n IH]; intros s L C; destruct (split_on_spec 10 s) as (l & rest & E & N & H); unfold cut; rewrite E.
  - destruct s; [|cbn in L; lia]. destruct H as [[-> <-]|(s' & X & _)]; [|destruct l; discriminate].
    reflexivity.
  - destruct H as [[-> ->]|(s' & -> & ->)].
    + rewrite <- (app_nil_r l) at 1. rewrite gsub_line; auto; [|left; auto]. cbn [map join]. cbn. rewrite app_nil_r. auto.
    + assert (Cw : wc 10%N = false) by (destruct C as [C|C]; auto; exfalso; apply C, in_app_iff; cbn; auto).
      rewrite gsub_line; auto; [|right; eauto]. 
      assert (Z : gsub total (10%N :: s') = 10%N :: gsub total s').
      { unfold gsub at 1. rewrite sub_step by lia. rewrite attempt_false. reflexivity. }
      rewrite Z, IH; auto.
      * unfold cut. cbn [map]. destruct (split_on_spec 10 s') as (l2 & r2 & E2 & _). rewrite E2. cbn [map join]. reflexivity.
      * rewrite app_length in L. cbn in L. lia.
Qed.
Lemma cut_spec s : (wc 10%N = false \/ ~ In 10%N s) -> re_sub (generic_missing_pattern wc) expand_1_3 s = cut s.
Proof.
  intro C. unfold re_sub. replace (S (2 * length s + 1)) with (2 * length s + 2) by lia.
  apply (gsub_cut (length s) (length s)); auto.
Qed.
Lemma generic_loop_spec s : (wc 10%N = false \/ ~ In 10%N s) -> generic_loop wc 5 s s = cut s.
Proof.
  intro C. assert (X : re_search (generic_missing_pattern wc) s = false -> cut s = s).
  { intro H. rewrite <- cut_spec by auto. unfold re_sub, re_search in *. cbn [sub_from].
    destruct (search_from _ _ _ s); [discriminate|auto]. }
  cbn [generic_loop]. destruct (re_search _ s) eqn:E; [|rewrite X; auto]. apply cut_spec; auto.
Qed.
End Generic.

(** ** Subsequences *)
Lemma subseq_refl s : subseq s s.
Proof. induction s; constructor; auto. Qed.
Lemma subseq_app a b c d : subseq a b -> subseq c d -> subseq (a ++ c) (b ++ d).
Proof. induction 1; cbn; auto; constructor; auto. Qed.
Lemma subseq_nil_l s : subseq [] s.
Proof. induction s; constructor; auto. Qed.
Lemma subseq_trans a b c : subseq a b -> subseq b c -> subseq a c.
Proof.
  intros H K. revert a H. induction K as [|x b c K IH|x b c K IH]; intros a H; auto.
  - inversion H; subst; constructor; auto.
  - constructor; auto.
Qed.
Lemma subseq_In a b c : subseq a b -> In c a -> In c b.
Proof. induction 1; cbn; tauto. Qed.
Lemma subseq_length a b : subseq a b -> length a <= length b /\ (length a = length b -> a = b).
Proof.
  induction 1 as [|c a b S [L E]|c a b S [L E]]; cbn; split; auto; try lia.
  - intro H. f_equal. auto.
Qed.
Lemma deleting_subseq here s : forall k, subseq (deleting here k s) s.
Proof.
  induction s as [|c s IH]; intro k; cbn; [constructor|].
  destruct k; [destruct (here (c :: s))|]; constructor; auto.
Qed.
Lemma cut_line_subseq l : subseq (cut_line l) l.
Proof.
  unfold cut_line. destruct (split_last 62 l) as [[before tail]|] eqn:E; [|apply subseq_refl].
  destruct (split_last 32 before) as [[a b]|] eqn:E2; [|apply subseq_refl].
  destruct (existsb _ a); [|apply subseq_refl].
  apply split_last_some in E as [-> _]. apply split_last_some in E2 as [-> _].
  rewrite <- app_assoc. apply subseq_app; [apply subseq_refl|]. cbn [app lit map]. 
  change (lit " " ++ tail) with (32%N :: tail). constructor.
  change tail with ([] ++ [] ++ tail). apply subseq_app; [apply subseq_nil_l|]. constructor. apply subseq_refl.
Qed.
Lemma join_split_on c n : forall s, length s <= n -> join [c] (split_on c s) = s.
Proof.
  induction n as [|n IH]; intros s L; destruct (split_on_spec c s) as (l & rest & E & N & [[-> ->]|(s' & -> & ->)]); rewrite E; auto.
  - rewrite app_length in L; cbn in L; lia.
  - specialize (IH s'). destruct (split_on_spec c s') as (l2 & r2 & E2 & _). rewrite E2 in *.
    change (join [c] (l :: l2 :: r2)) with (l ++ [c] ++ join [c] (l2 :: r2)). rewrite IH; auto. rewrite app_length in L. cbn in L; lia.
Qed.
Lemma cut_subseq s : subseq (cut s) s.
Proof.
  rewrite <- (join_split_on 10 (length s) s) at 2 by auto. unfold cut. generalize (split_on 10 s) as ls.
  induction ls as [|l ls IH]; [constructor|]. destruct ls as [|l2 ls]; [apply cut_line_subseq|].
  cbn [map join] in *. apply subseq_app; [apply cut_line_subseq|]. cbn [app]. constructor. auto.
Qed.

(** ** The word at a position *)
Lemma word_start_spec s : forall start, start <= length s ->
  exists a u, word_start s start = Some (length a) /\ firstn start s = a ++ u /\ ~ In 32%N u
    /\ (a = [] \/ exists a', a = a' ++ [32%N]).
Proof.
  induction start as [|p IH]; intro L; cbn [word_start].
  - exists [], []. repeat split; auto.
  - destruct (nth_error s p) as [c|] eqn:E; [|apply nth_error_None in E; lia].
    destruct (nth_error_split s p E) as (x & y & -> & Lx).
    assert (F : firstn p (x ++ c :: y) = x) by (rewrite <- Lx, firstn_app, Nat.sub_diag, firstn_all; apply app_nil_r).
    assert (F2 : firstn (S p) (x ++ c :: y) = x ++ [c]).
    { replace (S p) with (length x + 1) by lia. rewrite firstn_app_2. reflexivity. }
    rewrite F2. destruct (N.eqb_spec c 32) as [->|D].
    + exists (x ++ [32%N]), []. rewrite app_length, app_nil_r. cbn. replace (length x + 1) with (S p) by lia.
      repeat split; eauto.
    + destruct IH as (a & u & H1 & H2 & H3 & H4); [lia|]. rewrite F in H2. subst x. exists a, (u ++ [c]).
      split; [auto|]. split; [symmetry; apply app_assoc|]. split; auto. intro I. apply in_app_iff in I as [I|[I|[]]]; auto.
Qed.
Lemma word_start_none s start : length s < start -> word_start s start = None.
Proof. destruct start as [|p]; cbn; [lia|]. intro L. replace (nth_error s p) with (@None N); auto. symmetry. apply nth_error_None. lia. Qed.
Lemma word_len_spec rest : exists v b, rest = v ++ b /\ word_len rest = length v /\ ~ In 32%N v /\ ~ In 62%N v
  /\ (b = [] \/ exists c b', b = c :: b' /\ (c = 32%N \/ c = 62%N)).
Proof.
  induction rest as [|c rest (v & b & -> & L & N1 & N2 & B)]; cbn.
  - exists [], []. repeat split; auto.
  - destruct (N.eqb_spec c 32) as [->|D1]; [|destruct (N.eqb_spec c 62) as [->|D2]]; cbn.
    + exists [], (32%N :: v ++ b). repeat split; auto. right. eauto.
    + exists [], (62%N :: v ++ b). repeat split; auto. right. eauto.
    + exists (c :: v), b. cbn. rewrite L. repeat split; auto; intros [?|?]; auto.
Qed.
Lemma get_word_some line pos : pos <= length line -> exists w, get_word_at_str_pos line pos = Some w /\ word_at line pos w.
Proof.
  intro L. unfold get_word_at_str_pos. destruct (word_start_spec line pos L) as (a & u & -> & F & Nu & A).
  destruct (word_len_spec (skipn pos line)) as (v & b & V & -> & N1 & N2 & B).
  assert (E : line = a ++ u ++ v ++ b) by (rewrite app_assoc, <- F, <- V; symmetry; apply firstn_skipn).
  assert (P : length (a ++ u) = pos) by (rewrite <- F; apply firstn_length_le; auto).
  exists (u ++ v). split.
  - f_equal. rewrite E at 1. rewrite skipn_app, skipn_all, Nat.sub_diag. cbn [skipn app].
    rewrite app_length in P. replace (pos + length v - length a) with (length (u ++ v) + 0) by (rewrite app_length; lia).
    rewrite app_assoc, firstn_app_2. cbn. apply app_nil_r.
  - exists a, u, v, b. repeat split; auto. intro I. apply in_app_iff in I as [|]; auto.
Qed.
Lemma app_length_inv {A} (a b c d : list A) : a ++ b = c ++ d -> length a = length c -> a = c /\ b = d.
Proof.
  revert c. induction a as [|x a IH]; intros [|y c] E L; cbn in *; try discriminate; auto.
  inversion E. destruct (IH c H1) as [-> ->]; auto.
Qed.
Lemma last_space_unique (a u a2 u2 : str) : a ++ u = a2 ++ u2 -> ~ In 32%N u -> ~ In 32%N u2 ->
  (a = [] \/ exists a', a = a' ++ [32%N]) -> (a2 = [] \/ exists a', a2 = a' ++ [32%N]) -> u = u2.
Proof.
  intros E N1 N2 A1 A2.
  assert (X : forall a u a2 u2 : str, a ++ u = a2 ++ u2 -> ~ In 32%N u -> (a2 = [] \/ exists a', a2 = a' ++ [32%N]) -> length a2 <= length a).
  { clear. intros a u a2 u2 E N A. destruct (le_lt_dec (length a2) (length a)) as [L|L]; auto. exfalso.
    destruct A as [->|[a' ->]]; [cbn in L; lia|]. apply N. rewrite <- app_assoc in E.
    assert (a' = a ++ skipn (length a) a').
    { assert (F : firstn (length a) (a ++ u) = firstn (length a) (a' ++ [32%N] ++ u2)) by congruence.
      rewrite firstn_app, Nat.sub_diag, firstn_all in F. cbn [firstn] in F. rewrite app_nil_r in F.
      rewrite app_length in L. cbn in L.
      rewrite firstn_app in F. replace (length a - length a') with 0 in F by lia. cbn [firstn] in F. rewrite app_nil_r in F.
      rewrite F at 1. symmetry. apply firstn_skipn. }
    rewrite H in E. rewrite <- app_assoc in E. apply app_inv_head in E. rewrite E. apply in_app_iff. right. cbn. auto. }
  pose proof (X _ _ _ _ E N1 A2). pose proof (X _ _ _ _ (eq_sym E) N2 A1).
  apply app_length_inv in E as [_ ->]; auto; lia.
Qed.
Lemma word_at_unique line pos w w' : word_at line pos w -> word_at line pos w' -> w = w'.
Proof.
  intros (a & u & v & b & E & P & -> & N1 & N2 & A & B) (a2 & u2 & v2 & b2 & E2 & P2 & -> & N1' & N2' & A2 & B2).
  subst line. rewrite !app_assoc in E2. rewrite <- !(app_assoc (_ ++ _)) in E2. apply app_length_inv in E2 as [E1 E2]; [|lia].
  f_equal.
  - eapply last_space_unique; eauto; intro; [apply N1|apply N1']; apply in_app_iff; auto.
  - assert (Nv : ~ In 32%N v) by (intro; apply N1; apply in_app_iff; auto).
    assert (Nv' : ~ In 32%N v2) by (intro; apply N1'; apply in_app_iff; auto).
    clear -E2 N2 N2' Nv Nv' B B2. revert v2 E2 N2' Nv'. induction v as [|x v IH]; intros [|y v2] E N3 N4; auto.
    + exfalso. cbn in E. subst b. destruct B as [B|(c & b' & B & D)]; inversion B; subst. destruct D; subst; [apply N4|apply N3]; cbn; auto.
    + exfalso. cbn in E. subst b2. destruct B2 as [B2|(c & b' & B2 & D)]; inversion B2; subst. destruct D; subst; [apply Nv|apply N2]; cbn; auto.
    + cbn in E. inversion E; subst. f_equal. apply IH; auto; intro; [apply N2|apply Nv|apply N3|apply N4]; cbn; auto.
Qed.
Lemma word_at_bound line pos w : word_at line pos w -> pos <= length line.
Proof. intros (a & u & v & b & -> & <- & _). rewrite !app_length. lia. Qed.

(** ** Recovery *)
Lemma line_number_spec s n : py_index (split_on 10 s) (Z.of_nat n - 1) = line_number s n.
Proof.
  unfold py_index, line_number. destruct (split_on_spec 10 s) as (l & rest & E & _). rewrite E. destruct n as [|n].
  - cbn [Z.of_nat Z.sub Z.opp Z.add Z.leb Z.compare Pos.compare]. cbv iota.
    replace (Z.of_nat (length (l :: rest)) + -1 <? 0)%Z with false by (symmetry; apply Z.ltb_ge; cbn [length]; lia).
    f_equal. cbn [length]. lia.
  - replace (0 <=? Z.of_nat (S n) - 1)%Z with true by (symmetry; apply Z.leb_le; lia). f_equal. lia.
Qed.

Section Fix.
Variable wc : N -> bool.
Variable s : str.
Hypothesis C : wc 10%N = false \/ ~ In 10%N s.

Lemma fix_cases e :
  (exists y, fix_error wc s e = Ok y /\ recovers s e y /\ ~ recovery_fails s e)
  \/ (fix_error wc s e = Raise EIndex /\ recovery_fails s e /\ forall y, ~ recovers s e y).
Proof.
  destruct e as [| |code lineno offset|];
    try (left; exists s; split; [reflexivity|]; split; [constructor; discriminate|intros (? & ? & ? & _); discriminate]).
  cbn [fix_error]. unfold fix_missing_attribute, fix_missing_attribute_value.
  destruct (Nat.eqb_spec code 4) as [->|D]; cbn [negb].
  - rewrite line_number_spec. destruct (line_number s lineno) as [line|] eqn:Ln.
    + destruct (le_lt_dec offset (length line)) as [L|L].
      * left. destruct (get_word_some line offset L) as (w & -> & W). rewrite strike_spec.
        assert (NF : ~ recovery_fails s (EExpat 4 lineno offset)).
        { intros (l2 & o2 & E & F). inversion E; subst. rewrite Ln in F. lia. }
        destruct (str_eqb (strike w s) s) eqn:E; cbn [negb].
        -- apply str_eqb_eq in E. rewrite E, generic_loop_spec by auto. eexists; split; [reflexivity|].
           split; auto. eapply recovers_no_word; eauto.
        -- eexists; split; [reflexivity|]. split; auto. eapply recovers_word; eauto. intro X. rewrite X, str_eqb_refl in E. discriminate.
      * right. unfold get_word_at_str_pos. rewrite word_start_none by auto. split; auto. split.
        -- exists lineno, offset. rewrite Ln. auto.
        -- intros y H. inversion H; subst; try congruence; rewrite Ln in *;
           match goal with H : Some _ = Some _ |- _ => inversion H; subst end;
           match goal with H : word_at _ _ _ |- _ => apply word_at_bound in H end; lia.
    + right. split; auto. split.
      * exists lineno, offset. rewrite Ln. auto.
      * intros y H. inversion H; subst; congruence.
  - left. rewrite str_eqb_refl. cbn [negb]. rewrite generic_loop_spec by auto. eexists; split; [reflexivity|]. split.
    + constructor; auto.
    + intros (? & ? & E & _). inversion E. congruence.
Qed.
Lemma recovers_fun e y y' : recovers s e y -> recovers s e y' -> y = y'.
Proof.
  intros H K. inversion H; subst; inversion K; subst; try congruence;
  repeat match goal with
  | H : forall c l o, EExpat ?a ?b ?d <> _ |- _ => destruct (H a b d eq_refl)
  | H1 : line_number s ?n = _, H2 : line_number s ?n = _ |- _ => rewrite H1 in H2; inversion H2; subst; clear H2
  | H1 : word_at ?l ?o ?w, H2 : word_at ?l ?o ?v |- _ => first [constr_eq w v; clear H2 | assert (w = v) by (eapply word_at_unique; eauto); subst]
  end; congruence.
Qed.
Lemma fix_recovers e y : fix_error wc s e = Ok y <-> recovers s e y.
Proof.
  destruct (fix_cases e) as [(y' & E & R & _)|(E & _ & N)]; rewrite E; split; intro H.
  - inversion H; subst; auto.
  - f_equal. eapply recovers_fun; eauto.
  - discriminate.
  - destruct (N y H).
Qed.
Lemma fix_fails e e' : fix_error wc s e = Raise e' <-> recovery_fails s e /\ e' = EIndex.
Proof.
  destruct (fix_cases e) as [(y' & E & R & N)|(E & F & N)]; rewrite E; split; intro H.
  - discriminate.
  - destruct H; contradiction.
  - inversion H; auto.
  - destruct H; subst; auto.
Qed.
End Fix.
Lemma recovers_subseq s e y : recovers s e y -> subseq y s.
Proof. destruct 1; try apply subseq_refl; try apply cut_subseq; apply deleting_subseq. Qed.
Lemma clean_one_line xml : ~ In 10%N (clean xml).
Proof.
  intro I. apply (subseq_In _ _ _ (deleting_subseq _ _ _)) in I. unfold no_line_breaks in I. apply filter_In in I as [_ I]. discriminate.
Qed.
Lemma recovers_one_line s e y : recovers s e y -> ~ In 10%N s -> ~ In 10%N y.
Proof. intros R N I. apply N. eapply subseq_In; eauto. eapply recovers_subseq; eauto. Qed.
