(** C55: converter objects: made now, run later, several at a time. *)
From Coq Require Import String.
From Verif Require Import SpecExamples LemObjects.
Local Open Scope string_scope.
Local Open Scope list_scope.

(** Making a converter flags the mtables strictly below an mtable; for other tags it writes nothing. *)
Theorem C55_making : forall e h, sound h (locs e) ->
  let h' := fst (to_latex_converter e h) in
  length h' = length h /\
  forall l,
    (is_table (e_name e) = true /\ (exists x, below_elem e x /\ is_table (e_name x) = true /\ l = e_attributes x)
     /\ hget h' l = dset (hget h l) (lit "innerTable") (lit "innerTable"))
    \/ (~ (is_table (e_name e) = true /\ exists x, below_elem e x /\ is_table (e_name x) = true /\ l = e_attributes x)
        /\ hget h' l = hget h l).
Proof.
  intros e h [_ B]. cbv zeta. rewrite make_heap. split; [apply writes_length|]. intro l.
  destruct (existsb (Nat.eqb l) (made_writes e)) eqn:X.
  - left. apply existsb_eqb in X. pose proof X as Y. apply made_writes_below in Y as [Y1 Y2]. repeat split; auto.
    apply writes_in; auto. apply B. apply made_writes_locs; auto.
  - right. assert (Z : ~ In l (made_writes e)) by (rewrite <- existsb_eqb; congruence). split.
    + rewrite <- made_writes_below. exact Z.
    + apply writes_other; auto.
Qed.
Print Assumptions C55_making.

(** A converter of any tag but mfenced and menclose reads its element when it is run: whatever the heap it was made in,
    its outcome is the LaTeX of the tree the element holds at the time of the run. *)
Theorem C55_late : forall e h_made h_run, reads_early (e_name e) = false ->
  sound h_run (locs e) -> inner_flags_set h_run e ->
  snd (snd (to_latex_converter e h_made) h_run) = latex_of (tree_at h_run e).
Proof. exact run_late. Qed.
Print Assumptions C55_late.
(** An attribute changed between making and running: the new value counts. *)
Example C55_late_example :
  let (h, e) := build (ela "mfrac" [("bevelled", "")] [mi "x"; ela "mi" [("mathvariant", "bold")] []]) [] in
  let c := snd (to_latex_converter e h) in
  let h2 := hset h (e_attributes e) [(lit "bevelled", lit "true")] in
  sound h2 (locs e) /\ inner_flags_set h2 e
  /\ snd (c h) = Ok (lit "\frac{x}{\mathbf{}}") /\ snd (c h2) = Ok (lit "x/\left(\mathbf{}\right)").
Proof.
  vm_compute. repeat split; try discriminate.
  - repeat (constructor; [cbn; intuition lia|]). constructor.
  - intros l H. repeat (destruct H as [<-|H]; [lia|]). destruct H.
Qed.

(** mfenced and menclose keep the attributes of the moment they were made; their children are read when they are run. *)
Theorem C55_early : forall n v ch l h_made h_run, reads_early n = true -> sound h_run (locs (Elem n v ch l)) ->
  snd (snd (to_latex_converter (Elem n v ch l) h_made) h_run)
  = latex_of (T n v (map (tree_at h_run) ch) (hget h_made l)).
Proof. exact run_early. Qed.
Print Assumptions C55_early.
Example C55_early_example :
  let (h, e) := build (ela "mfenced" [("open", "["); ("close", "]")] [mi "x"]) [] in
  let c := snd (to_latex_converter e h) in
  let h2 := hset h (e_attributes e) [(lit "open", lit "(")] in
  snd (c h2) = Ok (lit "\left[x\right]") /\ snd (convert_elem e h2) = Ok (lit "\left(x\right)").
Proof. vm_compute. auto. Qed.

(** Any sequence of making and running converters of elements that are the same or share nothing: every run gives the LaTeX
    of the tree its element held at the start. *)
Theorem C55_interleaving : forall acts h,
  (forall e, In e (subjects_of acts) -> sound h (locs e)) -> apart (subjects_of acts) ->
  snd (perform acts [] h) = outcomes h acts [].
Proof.
  intros acts h Sd Ap. apply (perform_spec h (subjects_of acts)); auto.
  - apply incl_refl.
  - intros x [].
  - apply Forall_forall. intros e Ie. split; auto. apply shape_tree_at.
Qed.
Print Assumptions C55_interleaving.
(** Two converters of one nested table and one of another element, run in a mixed order, one of them failing. *)
Example C55_interleaving_example :
  let (h1, e) := build outer_tab [] in let (h, f) := build (el "msup" [mi "x"]) h1 in
  let acts := [New e; New f; Run 0; New e; Run 1; Run 2; Run 7; Run 0] in
  (forall x, In x (subjects_of acts) -> sound h (locs x)) /\ apart (subjects_of acts)
  /\ let s := lit "\begin{matrix}x \\" ++ nl ++ lit "1\end{matrix} \\" ++ nl ++ lit "y" in
     snd (perform acts [] h)
     = [Ok s; Raise (EInvalidChildren (lit "msup") 2 1 (lit "exactly")); Ok s; Ok s].
Proof.
  vm_compute. split; [|split; [|reflexivity]].
  - intros x H. repeat (destruct H as [<-|H];
      [split; [repeat (constructor; [cbn; intuition lia|]); constructor
              |intros l J; cbn in J; repeat (destruct J as [<-|J]; [lia|]); destruct J]|]). destruct H.
  - intros x y H J.
    repeat (destruct H as [<-|H]; [repeat (destruct J as [<-|J]; [try (left; reflexivity); right; cbn; intuition lia|]); destruct J|]).
    destruct H.
Qed.

(** When the elements overlap, the order of the steps shows: making a converter for an outer table changes what a converter
    made before for the inner table gives. *)
Theorem C55_overlap_refuted : exists e_inner e_outer h,
  below_elem e_outer e_inner /\ sound h (locs e_outer)
  /\ snd (perform [New e_inner; New e_outer; Run 0] [] h) <> snd (perform [New e_inner; Run 0; New e_outer] [] h).
Proof.
  pose (p := build (el "mtable" [inner_tab]) []). exists (hd (snd p) (e_children (snd p))), (snd p), (fst p).
  split; [|split].
  - apply below_child. vm_compute. auto.
  - vm_compute. split; [repeat (constructor; [cbn; intuition lia|]); constructor|].
    intros l J; repeat (destruct J as [<-|J]; [lia|]); destruct J.
  - vm_compute. discriminate.
Qed.
Print Assumptions C55_overlap_refuted.
