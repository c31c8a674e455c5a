(** C72: the number of steps and the depth of calls of a conversion. *)
From Coq Require Import String.
From Verif Require Import SpecExamples LemCost.
Local Open Scope string_scope.
Local Open Scope list_scope.

(** However often an element occurs in the tree it is an element of, [to_latex_converter] is called at most once for each
    place, and so is [convert()]. *)
Theorem C72_once : forall e st,
  tally (calls_of Making) (s_convert_elem e) st <= places e
  /\ tally (calls_of Entering) (s_convert_elem e) st <= places e.
Proof.
  intros e st. split; (etransitivity; [apply within_tally, within_convert|]).
  - rewrite effort_places; [cbn; lia|]. intros [[]|] H; cbn; congruence.
  - rewrite effort_places_entering; [cbn; lia|]. intros [[]|] H; cbn; congruence.
Qed.
Print Assumptions C72_once.

(** All steps together. *)
Theorem C72_steps : forall e st, tally all_steps (s_convert_elem e) st <= 6 * places e + text_length e + 2 * (places e * nesting e).
Proof. intros e st. etransitivity; [apply within_tally, within_convert|apply effort_bound]. Qed.
Print Assumptions C72_steps.
(** By kind: accesses to dictionaries; elements that the loops of MTable and MFenced come to. *)
Theorem C72_kinds : forall e st,
  tally accesses (s_convert_elem e) st <= 3 * places e + text_length e + places e * nesting e
  /\ tally visits_below (s_convert_elem e) st <= places e * nesting e.
Proof.
  intros e st. split; (etransitivity; [apply within_tally, within_convert|]).
  - pose proof (effort_any accesses 1 e) as H. cbn [accesses] in H. lia.
  - pose proof (effort_any visits_below 1 e) as H. cbn [visits_below] in H. lia.
Qed.
Print Assumptions C72_kinds.
Theorem C72_linear : forall e st, nesting e = 0 -> tally all_steps (s_convert_elem e) st <= 6 * places e + text_length e.
Proof. intros e st N. pose proof (C72_steps e st) as H. rewrite N in H. lia. Qed.
Print Assumptions C72_linear.

(** Calls of [convert()] in one another: no more than the tree has levels. *)
Theorem C72_depth : forall e st, deepest (s_convert_elem e) st 0 <= levels e.
Proof. intros e st. eapply level_deepest; [lia|]. apply (level_made e). lia. Qed.
Print Assumptions C72_depth.

(** Reading a text: at most five attempts, then one dictionary for each element. *)
Theorem C72_reading : forall wc ps mathml st,
  tally all_steps (reading wc ps mathml) st
  <= 19 + match snd (alone (reading wc ps mathml) st) with Ok els => list_sum (map places els) | Raise _ => 0 end
  /\ forall v, tally (calls_of v) (reading wc ps mathml) st = 0.
Proof.
  intros wc ps mathml st. split.
  - etransitivity; [apply tally_reading|]. unfold all_steps. lia.
  - intro v. pose proof (tally_reading (calls_of v) wc ps mathml st) as H.
    replace (calls_of v None) with 0 in H by (destruct v; reflexivity). lia.
Qed.
Print Assumptions C72_reading.

(** A whole call, by the elements that the text becomes. *)
Theorem C72_call : forall wc ps mathml st,
  match snd (alone (reading wc ps mathml) st) with
  | Ok els =>
      tally all_steps (s_mathml_to_latex wc ps mathml) st
      <= 19 + list_sum (map (fun e => 7 * places e + text_length e + 2 * (places e * nesting e)) els)
      /\ tally (calls_of Making) (s_mathml_to_latex wc ps mathml) st <= list_sum (map places els)
      /\ tally (calls_of Entering) (s_mathml_to_latex wc ps mathml) st <= list_sum (map places els)
      /\ deepest (s_mathml_to_latex wc ps mathml) st 0 <= list_max (map levels els)
  | Raise _ => tally all_steps (s_mathml_to_latex wc ps mathml) st <= 19 /\ deepest (s_mathml_to_latex wc ps mathml) st 0 = 0
  end.
Proof.
  intros wc ps mathml st. pose proof (fun w => tally_call w wc ps mathml st) as T. pose proof (deepest_call wc ps mathml st) as D.
  destruct (snd (alone (reading wc ps mathml) st)) as [els|e].
  - split; [|split; [|split; [|exact D]]]; (etransitivity; [apply T|]).
    + transitivity (19 + (list_sum (map places els) + list_sum (map (effort all_steps) els))); [unfold all_steps; lia|].
      apply Nat.add_le_mono_l. clear. induction els as [|e els IH]; cbn [map]; [cbn; lia|].
      repeat change (list_sum (?x :: ?l)) with (x + list_sum l). pose proof (effort_bound e). lia.
    + cbn [calls_of Nat.mul Nat.add]. apply sum_le. apply Forall_forall. intros e _. rewrite effort_places; [cbn; lia|]. intros [[]|] H; cbn; congruence.
    + cbn [calls_of Nat.mul Nat.add]. apply sum_le. apply Forall_forall. intros e _. rewrite effort_places_entering; [cbn; lia|]. intros [[]|] H; cbn; congruence.
  - split; [|lia]. etransitivity; [apply T|]. unfold all_steps. lia.
Qed.
Print Assumptions C72_call.

(** In a thread: whatever the other threads do, and whatever they leave in shared dictionaries, conversions are over after
    this number of turns. *)
Theorem C72_turns : forall wc ps es (threads : list (prog (list (res str)))) i st schedule,
  nth_error threads i = Some (thread_prog wc ps (map Convert es)) ->
  list_sum (map (fun e => 6 * places e + text_length e + 2 * (places e * nesting e)) es) <= turns i schedule ->
  exists r, nth_error (fst (exec schedule threads st)) i = Some (Done r).
Proof.
  intros wc ps es threads i st schedule E L. eapply turns_done; [exact E|apply within_thread|].
  etransitivity; [|exact L]. apply sum_le. apply Forall_forall. intros e _. apply effort_bound.
Qed.
Print Assumptions C72_turns.

(** No multiple of the size is enough if mfenceds stand in one another: the search of [MFenced] runs over everything below. *)
Theorem C72_size_alone_refuted : forall c, exists e, forall st,
  c * (places e + text_length e) < tally (calls_of Searching) (s_convert_elem e) st.
Proof.
  intro c. exists (fences (4 * c + 4)). intro st. pose proof (fences_tally (4 * c + 4) st) as T.
  assert (S : forall k, places (fences k) + text_length (fences k) = k + 2).
  { induction k as [|k IH]; [reflexivity|]. cbn [fences places text_length map list_sum fold_right length]. lia. }
  rewrite S. nia.
Qed.
Print Assumptions C72_size_alone_refuted.

(** A table in a fence with a table below: what is counted. *)
Definition cost_elem : elem :=
  Elem (lit "mfenced") [] [Elem (lit "mtable") [] [Elem (lit "mtr") [] [Elem (lit "mtd") [] [
    Elem (lit "msup") [] [Elem (lit "mi") (lit "x") [] 1; Elem (lit "mn") (lit "2") [] 2] 3] 4;
    Elem (lit "mtd") [] [Elem (lit "mtable") [] [Elem (lit "mtext") (lit "a b c") [] 5] 6] 7] 8] 9] 10.
Definition cost_state : state := State (repeat [] 11) [].
Example C72_example :
  places cost_elem = 10 /\ levels cost_elem = 6 /\ nesting cost_elem = 3 /\ text_length cost_elem = 7
  /\ tally (calls_of Making) (s_convert_elem cost_elem) cost_state = 10
  /\ tally (calls_of Entering) (s_convert_elem cost_elem) cost_state = 10
  /\ tally (calls_of Leaving) (s_convert_elem cost_elem) cost_state = 10
  /\ tally (calls_of Flagging) (s_convert_elem cost_elem) cost_state = 9
  /\ tally (calls_of Searching) (s_convert_elem cost_elem) cost_state = 1
  /\ tally accesses (s_convert_elem cost_elem) cost_state = 8
  /\ tally visits_below (s_convert_elem cost_elem) cost_state = 10
  /\ tally all_steps (s_convert_elem cost_elem) cost_state = 48
  /\ deepest (s_convert_elem cost_elem) cost_state 0 = 6.
Proof. vm_compute. repeat split. Qed.
Definition cost_echo (x : str) : res document := Ok [del "math" [DElem (lit "mi") [] [DText x]]].
Definition cost_deaf (x : str) : res document := Raise (EOther 1).
Example C72_call_example :
  (exists l1 l2, snd (alone (reading no_word cost_echo (lit "y")) cost_state) = Ok [Elem (lit "math") [] [Elem (lit "mi") (lit "y") [] l2] l1])
  /\ tally all_steps (s_mathml_to_latex no_word cost_echo (lit "y")) cost_state = 14
  /\ deepest (s_mathml_to_latex no_word cost_echo (lit "y")) cost_state 0 = 2
  /\ snd (alone (reading no_word cost_deaf (lit "y")) cost_state) = Raise (EOther 1).
Proof. split; [exists 11, 12; vm_compute; reflexivity|]. vm_compute. repeat split. Qed.
Example C72_turns_example :
  let schedule := flat_map (fun _ => [0; 1]) (seq 0 127) in
  let threads := map (thread_prog no_word cost_echo) [[Convert cost_elem]; [Call (lit "y")]] in
  turns 0 schedule = 127
  /\ list_sum (map (fun e => 6 * places e + text_length e + 2 * (places e * nesting e)) [cost_elem]) = 127
  /\ nth_error (fst (exec schedule threads cost_state)) 0
     = Some (Done (Ok [Ok (lit "\begin{bmatrix}" ++ newline ++ lit "x^{2} & \begin{matrix}\text{a b c}\end{matrix}" ++ newline ++ lit "\end{bmatrix}")])).
Proof. vm_compute. repeat split. Qed.
