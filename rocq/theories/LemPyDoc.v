(** xml_to_mathml/services/xml_elements_to_mathml_element.py: the source does what the model does. *)
From Coq Require Import String.
From Verif Require Export LemPyErrors LemDoc SpecHeight LemPyHeight.
Local Open Scope string_scope.
Local Open Scope list_scope.

Lemma evs_mapM_pure {K} {A B} (f : nat -> A -> MM B) (g : A -> B) l S :
  (forall a, In a l -> evs K (fun n => f n a) S S (Done (g a))) -> evs K (fun n => mapM (f n) l) S S (Done (map g l)).
Proof.
  induction l as [|a l IH]; intros H; cbn [mapM map]; [apply evs_ret|].
  eapply evs_bnd; [apply H; left; reflexivity|]. eapply evs_bnd; [apply IH; intros; apply H; right; assumption|]. apply evs_ret.
Qed.
Lemma concat_map_single {A B} (f : A -> B) l : concat (map (fun a => [f a]) l) = map f l.
Proof. induction l as [|a l IH]; cbn; [reflexivity | rewrite IH; reflexivity]. Qed.
Lemma evs_for_turn {K} (body : nat -> names -> MM ending) x v l r r2 S S2 S3 o :
  evs K (fun n => body n (assign r x v)) S S2 (Done (Next r2)) -> evs K (fun n => for_loop (body n) [x] l r2) S2 S3 o ->
  evs K (fun n => for_loop (body n) [x] (v :: l) r) S S3 o.
Proof. intros H1 H2. cbn [for_loop targets bnd]. eapply evs_bnd; [exact H1|]. exact H2. Qed.
Lemma last_nth {A} (l : list A) a : nth_error (l ++ [a]) (length l) = Some a.
Proof. rewrite nth_error_app2, Nat.sub_diag by lia. reflexivity. Qed.
Lemma last_put {A} (l : list A) a b : put (l ++ [a]) (length l) b = l ++ [b].
Proof. induction l as [|c l IH]; cbn; [reflexivity | rewrite IH; reflexivity]. Qed.
Definition is_element_type (n : dnode) : bool := Z.eqb (node_type n) 1.
Lemma any_elements ns : any_true (map (fun n => VBool (is_element_type n)) ns) = Ret (has_element_child ns).
Proof.
  unfold any_true, has_element_child. induction ns as [|n ns IH]; cbn; [reflexivity|]. rewrite IH. destruct n; reflexivity.
Qed.
Definition is_element (n : dnode) : bool := match n with DElem _ _ _ => true | _ => false end.
Lemma convert_filtered ns : forall h, convert_elements (filter is_element ns) h = convert_elements ns h.
Proof.
  induction ns as [|n ns IH]; intros h; [reflexivity|]. destruct n; cbn [filter is_element]; try (cbn [convert_elements convert_element]; rewrite IH; destruct (convert_elements ns h); reflexivity).
  cbn [convert_elements]. destruct (convert_element _ h) as [h3 e]. rewrite IH. reflexivity.
Qed.
Lemma filtered_none ns : has_element_child ns = false -> filter is_element ns = [].
Proof. unfold has_element_child. induction ns as [|n ns IH]; cbn; [reflexivity|]. destruct n; cbn; try exact IH; discriminate. Qed.

(** ** Heights *)
Lemma max_app l l' : list_max (l ++ l') = Nat.max (list_max l) (list_max l').
Proof. induction l as [|a l IH]; [reflexivity|]. change (list_max ((a :: l) ++ l')) with (Nat.max a (list_max (l ++ l'))). rewrite IH. cbn. fold (list_max l). lia. Qed.
Lemma converted_height n : forall h, list_max (map height (snd (convert_element n h))) <= node_height n.
Proof.
  induction n as [tag a ch IH|n H] using dnode_ind'; intros h; [|destruct n; discriminate || cbn; lia].
  rewrite convert_element_eq. cbn [snd map list_max fold_right height node_height].
  assert (X : forall h0, list_max (map height (snd (convert_elements ch h0))) <= list_max (map node_height ch)).
  { induction IH as [|c ch Hc _ IHc]; intros h0; [cbn; lia|]. cbn [convert_elements]. specialize (Hc h0). destruct (convert_element c h0) as [h3 e]. specialize (IHc h3).
    destruct (convert_elements ch h3) as [h4 es]. cbn [snd] in *. rewrite map_app, max_app.
    change (list_max (map node_height (c :: ch))) with (Nat.max (node_height c) (list_max (map node_height ch))). lia. }
  specialize (X (h ++ [convert_element_attributes a])). lia.
Qed.
Lemma all_converted_height ns : forall h, list_max (map height (snd (convert_elements ns h))) <= list_max (map node_height ns).
Proof.
  induction ns as [|c ch IH]; intros h0; [cbn; lia|]. cbn [convert_elements]. pose proof (converted_height c h0) as Hc. destruct (convert_element c h0) as [h3 e]. specialize (IH h3).
  destruct (convert_elements ch h3) as [h4 es]. cbn [snd] in *. rewrite map_app, max_app.
  change (list_max (map node_height (c :: ch))) with (Nat.max (node_height c) (list_max (map node_height ch))). lia.
Qed.
Lemma found_height t n : list_max (map node_height (elements_by_tag t n)) <= node_height n.
Proof.
  induction n as [tag a ch IH|n H] using dnode_ind'; [|destruct n; discriminate || cbn; lia].
  cbn [elements_by_tag]. rewrite map_app, max_app.
  assert (X : list_max (map node_height (flat_map (elements_by_tag t) ch)) <= list_max (map node_height ch)).
  { induction IH as [|c ch Hc _ IHc]; [cbn; lia|]. cbn [flat_map]. rewrite map_app, max_app.
    change (list_max (map node_height (c :: ch))) with (Nat.max (node_height c) (list_max (map node_height ch))). lia. }
  cbn [node_height]. destruct (str_eqb tag t); cbn [map list_max fold_right node_height]; lia.
Qed.
Lemma all_found_height t d : list_max (map node_height (get_elements_by_tag_name d t)) <= document_height d.
Proof.
  unfold get_elements_by_tag_name, document_height. induction d as [|c d IH]; [cbn; lia|]. cbn [flat_map]. rewrite map_app, max_app. pose proof (found_height t c).
  change (list_max (map node_height (c :: d))) with (Nat.max (node_height c) (list_max (map node_height d))). lia.
Qed.

Section Doc.
Variable word_char : N -> bool.
Variable parse_string : str -> res document.
Notation C := (call word_char parse_string).
Notation "'computes' k f args v" := (forall K (HK : k <= K) S, evs K (fun n => C n f args []) S S (Done v)) (at level 10, k at level 9, f at level 9, args at level 9, v at level 9).
Definition doc_adapter := VObj "ElementsToMathMLAdapter" [].

Lemma has_child_ok tag attributes children : computes 2 (VMethod doc_adapter "ElementsToMathMLAdapter" "_has_element_child") [VNode (DElem tag attributes children)] (VBool (has_element_child children)).
Proof.
  intros K HK S. unfold doc_adapter. penter. repeat apply evs_assoc.
  eapply evs_bnd; [apply (evs_mapM_pure _ (fun v => [match v with VNode n => VBool (is_element_type n) | _ => VNone end])); intros v Hv; apply in_map_iff in Hv; destruct Hv as (n & <- & _); destruct n; simple; apply evs_ret|].
  simple. rewrite map_map. rewrite concat_map_single. prun. rewrite any_elements. cbn [bnd]. prun.
Qed.
Definition attr_names k l (extra : names) : names :=
  [("self", VObj "ElementsToMathMLAdapter" []); ("attributes", VAttributes l); ("__class__", VClass "ElementsToMathMLAdapter"); ("attr_dict", VDict k)] ++ extra.
Lemma attributes_ok l S K (HK : 3 <= K) :
  evs K (fun n => C n (VMethod doc_adapter "ElementsToMathMLAdapter" "_convert_element_attributes") [VAttributes l] [])
    S (Memory (dicts S ++ [convert_element_attributes l]) (objects S)) (Done (VDict (length (dicts S)))).
Proof.
  unfold doc_adapter. penter. eapply evs_act; [unfold new_dict; reflexivity|]. simple. repeat apply evs_assoc.
  eapply evs_bnd; [penter; prun|]. simple. repeat apply evs_assoc.
  match goal with |- evs ?KK (fun n => bnd (for_loop (@?b n) _ _ _) _) _ _ _ => set (body := b); set (K' := KK) end.
  assert (T : forall extra n v d, extra = [] \/ (exists a w, extra = [("attr", a); ("attr_value", w)]) ->
    evs K' (fun k => body k (assign (attr_names (length (dicts S)) l extra) "attr" (VAttribute n v))) (Memory (dicts S ++ [d]) (objects S))
      (Memory (dicts S ++ [dset d n (if str_eqb v n then [] else v)]) (objects S))
      (Done (Next (attr_names (length (dicts S)) l [("attr", VAttribute n v); ("attr_value", VStr (if str_eqb v n then [] else v))])))).
  { intros extra n v d [-> | (a & w & ->)]; subst body; simple; destruct (str_eqb v n); simple.
    all: eapply evs_act; [unfold set_item; cbn [dicts]; rewrite last_nth; cbn [option_map objects]; rewrite last_put; reflexivity|]; prun. }
  assert (G : forall l' extra d, extra = [] \/ (exists a w, extra = [("attr", a); ("attr_value", w)]) ->
    exists extra', evs K' (fun k => for_loop (body k) ["attr"] (map (fun a => VAttribute (fst a) (snd a)) l') (attr_names (length (dicts S)) l extra)) (Memory (dicts S ++ [d]) (objects S))
      (Memory (dicts S ++ [fold_left (fun d nv => dset d (fst nv) (if str_eqb (snd nv) (fst nv) then [] else snd nv)) l' d]) (objects S))
      (Done (Next (attr_names (length (dicts S)) l extra')))).
  { induction l' as [|[n v] l' IH]; intros extra d He.
    - exists extra. apply evs_ret.
    - cbn [map fst snd fold_left]. edestruct IH as (extra' & E); [|exists extra'; eapply evs_for_turn; [apply T; exact He | exact E]]. right. eauto. }
  destruct (G l [] [] (or_introl eq_refl)) as (extra' & E). eapply evs_bnd; [exact E|]. clear -HK. simple. prun.
Qed.

(** ** convert *)
Section Convert.
Variable pi : loc -> nat.
Notation el := (elem_value pi).
(** The next dictionaries of both sides go together. *)
Definition in_step (h : heap) (S : memory) : Prop := forall l, length h <= l -> pi l = length (dicts S) + (l - length h).
Definition more (S : memory) (suf : list (dict str)) : memory := Memory (dicts S ++ suf) (objects S).
Lemma in_step_more h S suf : in_step h S -> in_step (h ++ suf) (more S suf).
Proof. intros H l Hl. rewrite app_length in *. cbn. rewrite app_length, H by lia. lia. Qed.
Lemma more_more S a b : more (more S a) b = more S (a ++ b).
Proof. unfold more. cbn. rewrite app_assoc. reflexivity. Qed.
Lemma more_nil S : more S [] = S.
Proof. unfold more. rewrite app_nil_r. destruct S. reflexivity. Qed.

Definition converts (b : nat) (n : dnode) : Prop := is_element n = true -> forall K (HK : b <= K) h S, in_step h S -> exists suf e,
  convert_element n h = (h ++ suf, [e]) /\
  evs K (fun k => C k (VMethod doc_adapter "ElementsToMathMLAdapter" "_convert_element") [VNode n] []) S (more S suf) (Done (el e)).
Definition each (k : nat) (w : value) : MM (list value) :=
  t <~ (b <~ (v <~ attribute (C k) w "tagName"; Ret (VBool (negb (is_none v)))); truth b);
  (if t : bool then u <~ C k (VMethod (VObj "ElementsToMathMLAdapter" []) "ElementsToMathMLAdapter" "_convert_element") [w] []; Ret [u] else Ret []).
Lemma each_list ns b K (HK : b <= K) : Forall (fun n => is_element n = true) ns -> Forall (converts b) ns -> forall h S, in_step h S -> exists suf els,
  convert_elements ns h = (h ++ suf, els) /\ evs K (fun k => mapM (each k) (map VNode ns)) S (more S suf) (Done (map (fun e => [el e]) els)).
Proof.
  induction 1 as [|n ns Hn F1 IH]; intros F2 h S H.
  - exists [], []. rewrite more_nil, app_nil_r. split; [reflexivity | apply evs_ret].
  - inversion F2 as [|? ? H1 H2]; subst. destruct (H1 Hn K HK h S H) as (suf & e & E & V). destruct (IH H2 (h ++ suf) (more S suf) (in_step_more _ _ _ H)) as (suf' & els & E' & V').
    exists (suf ++ suf'), (e :: els). cbn [convert_elements]. rewrite E, E', app_assoc. split; [reflexivity|]. rewrite <- more_more. cbn [map mapM].
    eapply evs_bnd; [|eapply evs_bnd; [exact V'|apply evs_ret]]. destruct n; try discriminate. unfold each. simple. unfold doc_adapter in V. eapply evs_bnd; [exact V|]. apply evs_ret.
Qed.
Lemma convert_list ns b K (HK : b + 1 <= K) : Forall (fun n => is_element n = true) ns -> Forall (converts b) ns -> forall h S, in_step h S -> exists suf els,
  convert_elements ns h = (h ++ suf, els) /\
  evs K (fun k => C k (VMethod doc_adapter "ElementsToMathMLAdapter" "convert") [VList (map VNode ns)] []) S (more S suf) (Done (VList (map el els))).
Proof.
  intros F1 F2 h S H.
  destruct (each_list ns b (pred K) ltac:(lia) F1 F2 h S H) as (suf & els & E & V). exists suf, els. split; [exact E|].
  unfold doc_adapter. penter. repeat apply evs_assoc. eapply evs_bnd; [exact V|]. simple. rewrite concat_map_single. prun.
Qed.
Lemma concat_elements ns : concat (map (fun n => if is_element n then [VNode n] else []) ns) = map VNode (filter is_element ns).
Proof. induction ns as [|n ns IH]; cbn; [reflexivity|]. rewrite IH. destruct (is_element n); reflexivity. Qed.
Lemma filter_elements ns : Forall (fun n => is_element n = true) (filter is_element ns).
Proof. apply Forall_forall. intros n H. apply filter_In in H. apply H. Qed.
Lemma convert_node n : converts (2 * node_height n + 4) n.
Proof.
  induction n as [tag attributes children IH | n Hn] using dnode_ind'; [|intros H; destruct n; discriminate].
  intros _ K HK h S H. rewrite convert_element_eq. cbn [node_height] in HK.
  destruct (convert_list (filter is_element children) (2 * list_max (map node_height children) + 4) (pred K) ltac:(lia) (filter_elements _)) with (h := h ++ [convert_element_attributes attributes]) (S := more S [convert_element_attributes attributes]) as (suf & els & E & V).
  { apply Forall_forall. intros n Hn. apply filter_In in Hn. rewrite Forall_forall in IH. destruct Hn as (Hn & _). intros He K1 HK1. apply (IH n Hn He). pose proof (node_height_in _ _ Hn). lia. }
  { apply in_step_more, H. }
  rewrite convert_filtered in E. rewrite E. cbn [fst snd]. rewrite <- app_assoc. eexists. eexists. split; [reflexivity|]. rewrite <- more_more.
  unfold doc_adapter in *. penter.
  repeat apply evs_assoc. eapply evs_bnd; [apply attributes_ok; lia|]. fold (more S [convert_element_attributes attributes]). simple.
  repeat apply evs_assoc. eapply evs_bnd; [apply has_child_ok; lia|]. simple. unfold element_value.
  assert (D : pi (length h) = length (dicts S)) by (rewrite H by lia; lia).
  destruct (has_element_child children) eqn:Eh; simple.
  - repeat apply evs_assoc.
    eapply evs_bnd; [apply (evs_mapM_pure _ (fun v => match v with VNode n => if is_element n then [VNode n] else [] | _ => [] end)); intros v Hv; apply in_map_iff in Hv; destruct Hv as (n & <- & _); destruct n; simple; apply evs_ret|].
    simple. rewrite map_map, concat_elements. simple. repeat apply evs_assoc. eapply evs_bnd; [exact V|]. simple. prun. unfold elem_value. rewrite D. reflexivity.
  - rewrite filtered_none in V by exact Eh. 
    assert (N : (suf, els) = ([], [])).
    { rewrite <- convert_filtered, filtered_none in E by exact Eh. cbn in E. inversion E as [[E1 E2]]. rewrite <- (app_nil_r (h ++ _)) in E1 at 1. apply app_inv_head in E1. rewrite <- E1. reflexivity. }
    inversion N; subst suf els. rewrite more_nil. destruct children as [|n children]; simple.
    + prun. unfold elem_value. rewrite D. reflexivity.
    + destruct n; try discriminate; simple; prun; unfold elem_value; rewrite D; reflexivity.
Qed.
Lemma convert_ok ns h S K (HK : 2 * list_max (map node_height ns) + 5 <= K) : Forall (fun n => is_element n = true) ns -> in_step h S -> exists suf,
  fst (convert_elements ns h) = h ++ suf /\
  evs K (fun k => C k (VMethod doc_adapter "ElementsToMathMLAdapter" "convert") [VList (map VNode ns)] []) S (more S suf) (Done (VList (map el (snd (convert_elements ns h))))).
Proof.
  intros F H. destruct (convert_list ns (2 * list_max (map node_height ns) + 4) K ltac:(lia) F) with (h := h) (S := S) as (suf & els & E & V); [apply Forall_forall; intros n Hn He K1 HK1; apply convert_node; [exact He | pose proof (node_height_in _ _ Hn); lia] | exact H|].
  exists suf. rewrite E. split; [reflexivity | exact V].
Qed.
End Convert.
End Doc.
