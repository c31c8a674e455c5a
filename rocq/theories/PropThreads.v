(** C71: calls in several threads. *)
From Coq Require Import String.
From Verif Require Import SpecExamples LemThreads.
Local Open Scope string_scope.
Local Open Scope list_scope.

(** A thread on its own does in steps what the model without steps does at once: same outcomes, same dictionaries. *)
Theorem C71_alone : forall wc ps jobs h xs, (forall i, In i (adapters_of jobs) -> i < length xs) ->
  exists n xs', exec (repeat 0 n) [thread_prog wc ps jobs] (State h xs)
    = ([Done (Ok (snd (sequential wc ps jobs h)))], State (fst (sequential wc ps jobs h)) xs').
Proof.
  intros wc ps jobs h xs B. destruct (alone_thread wc ps jobs h xs B) as (xs' & E).
  destruct (alone_steps (thread_prog wc ps jobs) (State h xs)) as (n & E'). exists n, xs'. rewrite exec_one, E', E. reflexivity.
Qed.
Print Assumptions C71_alone.

(** Whatever the schedule, what a thread has when it is done are the outcomes its jobs have with no other thread around. *)
Theorem C71_threads : forall wc ps ths st schedule i jobs r, elements_fine st ths -> adapters_fine st ths ->
  nth_error ths i = Some jobs ->
  nth_error (fst (exec schedule (map (thread_prog wc ps) ths) st)) i = Some (Done r) ->
  r = Ok (map (job_outcome wc ps (dicts st)) jobs).
Proof. intros wc ps ths st schedule i jobs r E A. apply threads_done; auto. Qed.
Print Assumptions C71_threads.

(** A thread that gets its turn again and again comes to an end, whatever the others do. *)
Theorem C71_finishes : forall wc ps ths st schedule i jobs, nth_error ths i = Some jobs ->
  (forall n, exists m, n <= m /\ schedule m = i) ->
  exists n r, nth_error (fst (moment schedule (map (thread_prog wc ps) ths) st n)) i = Some (Done r).
Proof.
  intros wc ps ths st schedule i jobs E Often. apply finishes with (p := thread_prog wc ps jobs) (k := 0); auto.
  unfold moment. cbn [seq map exec fst]. rewrite nth_error_map, E. reflexivity.
Qed.
Print Assumptions C71_finishes.

(** Threads that only call [MathMLToLaTeX.convert] need no conditions. *)
Theorem C71_calls : forall wc ps texts st schedule i mathmls, nth_error texts i = Some mathmls ->
  (forall n, exists m, n <= m /\ schedule m = i) ->
  exists n, nth_error (fst (moment schedule (map (fun l => thread_prog wc ps (map Call l)) texts) st n)) i
    = Some (Done (Ok (map (fun x => snd (mathml_to_latex wc ps x [])) mathmls))).
Proof.
  intros wc ps texts st schedule i mathmls E Often.
  assert (Q : map (fun l => thread_prog wc ps (map Call l)) texts = map (thread_prog wc ps) (map (map Call) texts)) by (rewrite map_map; reflexivity).
  assert (N : nth_error (map (map Call) texts) i = Some (map Call mathmls)) by (rewrite nth_error_map, E; reflexivity).
  rewrite Q. destruct (C71_finishes wc ps _ st schedule i _ N Often) as (n & r & Er). exists n. rewrite Er.
  assert (Z1 : forall l, elements_of (map Call l) = []) by (induction l; auto).
  assert (Z2 : forall l, adapters_of (map Call l) = []) by (induction l; auto).
  rewrite (C71_threads wc ps (map (map Call) texts) st (map schedule (seq 0 n)) i (map Call mathmls) r); auto.
  - rewrite map_map. reflexivity.
  - assert (Z : flat_map elements_of (map (map Call) texts) = []).
    { clear -Z1. induction texts; cbn [map flat_map]; auto. rewrite Z1. auto. }
    unfold elements_fine. rewrite Z. split; [intros e []|intros e f []].
  - assert (Z : flat_map adapters_of (map (map Call) texts) = []).
    { clear -Z2. induction texts; cbn [map flat_map]; auto. rewrite Z2. auto. }
    split; [rewrite Z; intros k []|]. intros a b t u _ Et _ k Ik. rewrite nth_error_map in Et.
    destruct (nth_error texts a); [|discriminate]. injection Et as <-. rewrite Z2 in Ik. destruct Ik.
Qed.
Print Assumptions C71_calls.

(** At every moment the dictionaries of the start are as they were, but for flags of mtables inside mtables. *)
Theorem C71_objects : forall wc ps ths st schedule, elements_fine st ths -> adapters_fine st ths ->
  let st' := snd (exec schedule (map (thread_prog wc ps) ths) st) in
  length (dicts st) <= length (dicts st') /\
  forall l, l < length (dicts st) -> hget (dicts st') l = hget (dicts st) l
    \/ (exists e x, In e (flat_map elements_of ths) /\ inner_table e x /\ l = e_attributes x
        /\ dget (hget (dicts st') l) (lit "innerTable") = Some (lit "innerTable")
        /\ forall k, k <> lit "innerTable" -> dget (hget (dicts st') l) k = dget (hget (dicts st) l) k).
Proof.
  intros wc ps ths st schedule E A st'. destruct (threads_common wc ps ths st E A schedule) as [L (V & IV & H)]. fold st' in L, H.
  split; auto. intros l Ll. rewrite (H l Ll). unfold wr. destruct (existsb (Nat.eqb l) V) eqn:X; auto. right.
  apply existsb_eqb, IV, in_flat_map in X as (e & Ie & X). apply inner_writable in X as (x & Ix & ->).
  exists e, x. repeat split; auto; [apply dget_dset_same|]. intros. apply dget_dset_other; auto.
Qed.
Print Assumptions C71_objects.

(** Two threads that take turns: both convert one element with a table in a table, and both call the library. *)
Definition echo (x : str) : res document := Ok [del "math" [DElem (lit "mi") [] [DText x]]].
Definition both : elem := snd (build (el "math" [outer_tab; mi "z"]) []).
Definition both_state : state := State (fst (build (el "math" [outer_tab; mi "z"]) [])) [[]].
Definition two_threads : list (list job) :=
  [[Convert both; Call (lit "a")]; [Call (lit "b"); CallWith 0 (lit "c"); Convert both]].
Example C71_example :
  let turns := flat_map (fun _ => [0; 1]) (seq 0 150) in
  let table := lit "\begin{matrix}x \\ 1\end{matrix} \\ y z" in
  elements_fine both_state two_threads /\ adapters_fine both_state two_threads
  /\ fst (exec turns (map (thread_prog no_word echo) two_threads) both_state)
     = [Done (Ok [Ok table; Ok (lit "a")]); Done (Ok [Ok (lit "b"); Ok (lit "c"); Ok table])]
  /\ firstn (length (dicts both_state)) (dicts (snd (exec turns (map (thread_prog no_word echo) two_threads) both_state)))
     <> dicts both_state.
Proof.
  cbv zeta. repeat match goal with |- _ /\ _ => split end.
  - split.
    + intros e H l J. cbn [two_threads flat_map elements_of app] in H.
      repeat (destruct H as [<-|H]; [vm_compute in J; repeat (destruct J as [<-|J]; [vm_compute; lia|]); destruct J|]). destruct H.
    + intros e f He Hf x y O I E. apply inner_writable_ex in I. rewrite <- E in I. apply outermost_outer_locs in O.
      cbn [two_threads flat_map elements_of app] in He, Hf.
      repeat (destruct He as [<-|He]; [repeat (destruct Hf as [<-|Hf]; [vm_compute in I, O; lia|]); destruct Hf|]). destruct He.
  - split.
    + intros i [<-|[]]. cbn. lia.
    + intros i j t u N Et Eu k It Iu. destruct i as [|[|i]], j as [|[|j]]; cbn in Et, Eu; try congruence;
        try (destruct i; discriminate); try (destruct j; discriminate);
        injection Et as <-; injection Eu as <-; cbn in It, Iu; tauto.
  - vm_compute. reflexivity.
  - vm_compute. discriminate.
Qed.

(** The text of an adapter is an attribute of the adapter object: two threads that call [convert] of one
    [XmlToMathMLAdapter] can get the LaTeX of each other's text. *)
Theorem C71_shared_adapter_refuted : exists ps x y schedule r1 r2,
  fst (exec schedule (map (thread_prog no_word ps) [[CallWith 0 x]; [CallWith 0 y]]) (State [] [[]])) = [Done (Ok [r1]); Done (Ok [r2])]
  /\ r1 <> snd (mathml_to_latex no_word ps x []) /\ r1 = r2 /\ r2 = snd (mathml_to_latex no_word ps y []).
Proof.
  exists echo, (lit "x"), (lit "y"), (0 :: 1 :: repeat 0 40 ++ repeat 1 40), (Ok (lit "y")), (Ok (lit "y")).
  repeat match goal with |- _ /\ _ => split end; vm_compute; try reflexivity. discriminate.
Qed.
Print Assumptions C71_shared_adapter_refuted.
