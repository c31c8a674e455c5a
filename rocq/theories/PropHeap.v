(** C02 - C06, C23: mutable attribute dictionaries, histories, composition. *)
From Coq Require Import String.
From Verif Require Import SpecExamples LemHeap.
Local Open Scope string_scope.
Local Open Scope list_scope.

(** C02: in every history of calls, on any heap, each call has the outcome of a first call, and no dictionary
    that existed before is changed. *)
Theorem C02_history_independent : forall word_char parse_string xmls h,
  snd (run_calls word_char parse_string xmls h)
    = map (fun x => snd (mathml_to_latex word_char parse_string x [])) xmls
  /\ (forall l, l < length h -> hget (fst (run_calls word_char parse_string xmls h)) l = hget h l).
Proof. exact run_calls_spec. Qed.
Print Assumptions C02_history_independent.
(** A history with a failing call between two equal ones, with nested tables, on a non-empty heap. *)
Example C02_example :
  let d := [del "math" [del "mtable" [del "mtr" [del "mtable" [del "mtr" [dleaf "mi" "x"]]]]]] in
  let parser s := if str_eqb s (lit "good") then Ok d else Raise (EOther 0) in
  snd (run_calls no_word parser [lit "good"; lit "bad"; lit "good"] [[(lit "k", lit "v")]])
  = [Ok (lit "\begin{matrix}x\end{matrix}"); Raise (EOther 0); Ok (lit "\begin{matrix}x\end{matrix}")].
Proof. vm_compute. reflexivity. Qed.

(** C03: n+1 conversions of one element give n+1 times the outcome of the first, and the heap the first left. *)
Theorem C03_repeatable : forall e h n, sound h (locs e) ->
  convert_times (S n) e h = (fst (convert_elem e h), repeat (snd (convert_elem e h)) (S n)).
Proof. exact (fun e h n H => convert_times_same e h n H). Qed.
Print Assumptions C03_repeatable.
Example C03_example : let (h, e) := build (el "math" [outer_tab; el "msup" [mi "x"]]) [] in
  sound h (locs e) /\ fst (convert_elem e h) <> h
  /\ snd (convert_times 3 e h) = repeat (Raise (EInvalidChildren (lit "msup") 2 1 (lit "exactly"))) 3.
Proof.
  vm_compute. repeat split.
  - repeat (constructor; [cbn; intuition lia|]). constructor.
  - intros l H. repeat (destruct H as [<-|H]; [lia|]). destruct H.
  - discriminate.
Qed.

(** C04: whatever the outcome, every dictionary of the heap is as before, or it belongs to an mtable strictly inside an
    mtable of the converted tree and differs only by innerTable having the value innerTable. *)
Theorem C04_only_inner_table_flags : forall e h, sound h (locs e) ->
  let h' := fst (convert_elem e h) in
  length h' = length h /\
  forall l, hget h' l = hget h l
            \/ (exists x, inner_table e x /\ l = e_attributes x
                /\ dget (hget h' l) (lit "innerTable") = Some (lit "innerTable")
                /\ forall k, k <> lit "innerTable" -> dget (hget h' l) k = dget (hget h l) k).
Proof.
  exact (fun e h Sd =>
    match convert_any e h Sd with
    | ex_intro _ W (conj IW (conj E _)) => ltac:(
        cbv zeta; rewrite E; cbn [fst]; split; [apply writes_length|]; intro l;
        rewrite hget_writes; destruct (existsb (Nat.eqb l) W) eqn:X; cbn [andb]; auto;
        apply existsb_eqb, IW, writable_inner in X as (x & E2 & Tx & [D|[D _]]); [|discriminate];
        destruct (Nat.ltb l (length h)); auto; right; exists x; split; auto; split; auto; split;
        [apply dget_dset_same | intros; apply dget_dset_other; auto])
    end).
Qed.
Print Assumptions C04_only_inner_table_flags.
Example C04_example : let (h, e) := build (el "mrow" [outer_tab]) [] in
  let h' := fst (convert_elem e h) in
  map (fun l => str_eqb (dget_or (hget h' l) (lit "innerTable") []) (lit "innerTable")) (locs e)
  = [false; false; false; false; true; false; false; false; false; false; false; false; false; false].
Proof. vm_compute. reflexivity. Qed.

(** C05: without tables in tables nothing is written. *)
Theorem C05_read_only : forall e h, sound h (locs e) ->
  table_in_table (tree_at h e) = false -> fst (convert_elem e h) = h.
Proof.
  exact (fun e h Sd NT =>
    match convert_any e h Sd with
    | ex_intro _ W (conj IW (conj E _)) => ltac:(
        rewrite (writable_none h e NT) in IW; rewrite E; cbn [fst];
        destruct W as [|w W]; [reflexivity|destruct (IW w (or_introl eq_refl))])
    end).
Qed.
Print Assumptions C05_read_only.
Example C05_example : table_in_table (el "mrow" [inner_tab; el "mfenced" [inner_tab]]) = false.
Proof. reflexivity. Qed.
(** The negative half: with nested tables, converting the outer table changes what the inner one converts to. *)
Theorem C05_nested_tables_refuted : exists t_outer t_inner h e_outer e_inner,
  t_children t_outer = [t_inner] /\ build t_outer [] = (h, e_outer) /\ e_children e_outer = [e_inner]
  /\ snd (convert_elem e_inner h) <> snd (convert_elem e_inner (fst (convert_elem e_outer h))).
Proof.
  exists (el "mtable" [inner_tab]), inner_tab.
  eexists; eexists; eexists. split; [reflexivity|]. split; [vm_compute; reflexivity|]. split; [reflexivity|].
  vm_compute. discriminate.
Qed.
Print Assumptions C05_nested_tables_refuted.

(** C06: on any heap the outcome is the reference rendering of the tree the objects hold ... *)
Theorem C06_function_of_tree : forall e h, sound h (locs e) ->
  snd (convert_elem e h) = latex_of (tree_at h e).
Proof.
  exact (fun e h Sd => match convert_any e h Sd with
    | ex_intro _ W (conj _ (conj E _)) => ltac:(rewrite E, latex_of_render; reflexivity) end).
Qed.
Print Assumptions C06_function_of_tree.
(** ... which is computed from tag, text, attributes and the outcomes of the children ... *)
Theorem C06_compositional : forall t, latex_of t = render false t.
Proof. exact latex_of_render. Qed.
Print Assumptions C06_compositional.
(** ... so that at every position a subtree can be exchanged for another one that has the same LaTeX there and
    looks the same to its parent (mprescripts or not, more than one child or not, a table inside or not). *)
Theorem C06_congruence : forall c t u, same_look t u ->
  render (in_table c) t = render (in_table c) u ->
  latex_of (plug c t) = latex_of (plug c u).
Proof. exact (fun c t u L E => eq_trans (latex_of_render _) (eq_trans (render_context c t u false L E) (eq_sym (latex_of_render _)))). Qed.
Print Assumptions C06_congruence.
Example C06_example :
  let c := At (lit "math") [] [mi "a"] (At (lit "msup") [] [mi "b"] Hole [] []) [mn "2"] [] in
  let t := el "mrow" [mi "x"] in let u := el "unknown" [mi " x "] in
  same_look t u /\ render (in_table c) t = render (in_table c) u /\ latex_of (plug c t) = Ok (lit "a b^{x} 2").
Proof. vm_compute. repeat split. Qed.

(** C23: an mtable at position [c] contributes its rows wrapped in a matrix environment exactly if an mtable encloses the
    position or its own innerTable attribute is not empty. *)
Theorem C23_inner_tables : forall c v rows a,
  latex_of (plug c (T (lit "mtable") v rows a))
  = fill false c (T (lit "mtable") v rows a)
      (ss <~ rseq (map (render true) rows) ;;
       let body := join (lit " \\" ++ nl) ss in
       Ok (if in_table c || truthy (attr a "innerTable")
           then lit "\begin{matrix}" ++ body ++ lit "\end{matrix}" else body)).
Proof.
  exact (fun c v rows a => ltac:(
    rewrite latex_of_render, render_plug; cbn [orb]; f_equal; cbn [render]; unfold node;
    change (tag_of (lit "mtable")) with TagTable; cbn iota; change (is_table (lit "mtable")) with true;
    rewrite orb_true_r, map_map; cbn [snd]; reflexivity)).
Qed.
Print Assumptions C23_inner_tables.
Example C23_example :
  let c := At (lit "mtable") [] [] (At (lit "mtr") [] [] (At (lit "msqrt") [] [] Hole [] []) [] []) [] [] in
  in_table c = true
  /\ latex_of (plug c inner_tab) = Ok (lit "\sqrt{\begin{matrix}x \\" ++ nl ++ lit "1\end{matrix}}")
  /\ latex_of inner_tab = Ok (lit "x \\" ++ nl ++ lit "1").
Proof. vm_compute. repeat split. Qed.
