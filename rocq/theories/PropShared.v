(** C69: element objects that stand at several places. *)
From Coq Require Import String.
From Verif Require Import SpecExamples LemShared.
Local Open Scope string_scope.
Local Open Scope list_scope.

(** An element graph in which objects or dictionaries are shared converts to the LaTeX of the tree it unfolds to, unless an
    mtable stands both inside an mtable and outside of all. *)
Theorem C69_function_of_tree : forall e h, in_heap h e -> unmixed h e e ->
  snd (convert_elem e h) = latex_of (tree_at h e).
Proof. intros e h B U. destruct (convert_shared e h B U) as (W & _ & E & _). rewrite E. reflexivity. Qed.
Print Assumptions C69_function_of_tree.

(** ... as often as it is converted ... *)
Theorem C69_repeatable : forall e h n, in_heap h e -> unmixed h e e ->
  convert_times (S n) e h = (fst (convert_elem e h), repeat (snd (convert_elem e h)) (S n)).
Proof. exact convert_times_shared. Qed.
Print Assumptions C69_repeatable.

(** ... and writes nothing but the flags of mtables inside mtables. *)
Theorem C69_only_inner_table_flags : forall e h, in_heap h e -> unmixed h e e ->
  let h' := fst (convert_elem e h) in
  length h' = length h /\
  forall l, hget h' l = hget h l
            \/ (exists x, inner_table e x /\ l = e_attributes x
                /\ dget (hget h' l) (lit "innerTable") = Some (lit "innerTable")
                /\ forall k, k <> lit "innerTable" -> dget (hget h' l) k = dget (hget h l) k).
Proof.
  intros e h B U. destruct (convert_shared e h B U) as (W & IW & E & _). cbv zeta. rewrite E. cbn [fst].
  split; [apply writes_length|]. intro l. rewrite hget_writes.
  destruct (existsb (Nat.eqb l) W) eqn:X; cbn [andb]; auto.
  destruct (Nat.ltb l (length h)); auto. right.
  apply existsb_eqb, IW, inner_writable in X as (x & I & ->). exists x. repeat split; auto.
  - apply dget_dset_same.
  - intros. apply dget_dset_other; auto.
Qed.
Print Assumptions C69_only_inner_table_flags.

(** Any sequence of making and running converters, for elements that may share objects or be parts of one another. *)
Theorem C69_interleaving : forall acts h,
  (forall e, In e (subjects_of acts) -> in_heap h e) ->
  (forall e f, In e (subjects_of acts) -> In f (subjects_of acts) -> unmixed h e f) ->
  snd (perform acts [] h) = outcomes h acts [].
Proof.
  intros acts h B U. apply (perform_shared h (subjects_of acts)); auto; [apply incl_refl|apply later_start].
Qed.
Print Assumptions C69_interleaving.

(** Distinct dictionaries, as in C03 to C06, are a special case. *)
Theorem C69_distinct_objects : forall e h, sound h (locs e) -> in_heap h e /\ unmixed h e e.
Proof.
  intros e h [ND B]. split; [exact B|]. intros x y O I E. destruct (distinct_unmixed e ND x y O I E).
Qed.
Print Assumptions C69_distinct_objects.

(** One [mi] object five times, one inner table object twice in an outer table, and a dictionary that an mrow outside of the
    tables has in common with the inner table. *)
Definition shared_mi : elem := Elem (lit "mi") (lit "x") [] 0.
Definition shared_table : elem := Elem (lit "mtable") [] [Elem (lit "mtr") [] [shared_mi; shared_mi] 1] 2.
Definition shared_graph : elem :=
  Elem (lit "mrow") []
    [Elem (lit "mtable") [] [Elem (lit "mtr") [] [shared_table; shared_table] 1] 3; shared_mi;
     Elem (lit "mfrac") [] [shared_mi; Elem (lit "mrow") [] [shared_mi] 2] 2] 1.
Definition shared_heap : heap := [[(lit "mathvariant", lit "bold")]; []; [(lit "bevelled", lit "true")]; []].

Example C69_example :
  in_heap shared_heap shared_graph /\ unmixed shared_heap shared_graph shared_graph
  /\ ~ NoDup (locs shared_graph) /\ fst (convert_elem shared_graph shared_heap) <> shared_heap
  /\ snd (convert_elem shared_graph shared_heap) = Ok
     (let r := lit "\mathbf{x} & \mathbf{x}" in let m := lit "\begin{matrix}" ++ r ++ lit "\end{matrix}" in
      m ++ lit " & " ++ m ++ lit " \mathbf{x} \left(\mathbf{x}\right)/\left(\mathbf{x}\right)").
Proof.
  repeat match goal with |- _ /\ _ => split end.
  - intros l H. vm_compute in H. repeat (destruct H as [<-|H]; [cbn; lia|]). destruct H.
  - intros x y O I E. apply inner_writable_ex in I. rewrite <- E in I. apply outermost_outer_locs in O.
    vm_compute in I, O. lia.
  - intro N. vm_compute in N. inversion N; subst. cbn in *. intuition.
  - vm_compute. discriminate.
  - vm_compute. reflexivity.
Qed.
(** Converters of an mi, of a row that holds it and of the whole, made and run in a mixed order. *)
Example C69_interleaving_example :
  let row := Elem (lit "mtr") [] [shared_mi; shared_mi] 1 in
  let acts := [New row; New shared_graph; New shared_mi; Run 1; Run 0; Run 2] in
  (forall e, In e (subjects_of acts) -> in_heap shared_heap e)
  /\ (forall e f, In e (subjects_of acts) -> In f (subjects_of acts) -> unmixed shared_heap e f)
  /\ snd (perform acts [] shared_heap)
     = [snd (convert_elem shared_graph shared_heap); Ok (lit "\mathbf{x} & \mathbf{x}"); Ok (lit "\mathbf{x}")].
Proof.
  cbv zeta. repeat match goal with |- _ /\ _ => split end.
  - intros e H. vm_compute in H. repeat (destruct H as [<-|H]; [intros l J; vm_compute in J; repeat (destruct J as [<-|J]; [cbn; lia|]); destruct J|]). destruct H.
  - intros e f He Hf x y O I E. apply inner_writable_ex in I. rewrite <- E in I.
    apply outermost_outer_locs in O. cbn [subjects_of flat_map app] in He, Hf.
    repeat (destruct He as [<-|He]; [repeat (destruct Hf as [<-|Hf]; [vm_compute in I, O; lia|]); destruct Hf|]). destruct He.
  - vm_compute. reflexivity.
Qed.

(** A table object both inside and outside: what it gives at one place depends on whether the other place came first, and
    a second conversion differs from the first. *)
Theorem C69_mixed_refuted : exists e1 e2 h,
  in_heap h e1 /\ in_heap h e2
  /\ snd (convert_elem e1 h) <> latex_of (tree_at h e1)
  /\ snd (convert_elem e2 h) = latex_of (tree_at h e2)
  /\ snd (convert_elem e2 (fst (convert_elem e2 h))) <> snd (convert_elem e2 h).
Proof.
  pose (big := Elem (lit "mtable") [] [shared_table] 3).
  exists (Elem (lit "mrow") [] [big; shared_table] 1), (Elem (lit "mrow") [] [shared_table; big] 1), shared_heap.
  repeat match goal with |- _ /\ _ => split end;
    try (intros l H; vm_compute in H; repeat (destruct H as [<-|H]; [cbn; lia|]); destruct H);
    vm_compute; try reflexivity; discriminate.
Qed.
Print Assumptions C69_mixed_refuted.
