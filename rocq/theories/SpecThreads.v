(** Specification of the library in several threads (C71). *)
From Coq Require Import String.
From Verif Require Export ModelSteps SpecShared.
Local Open Scope string_scope.
Local Open Scope list_scope.

(** What a job should give: what it gives with no other thread around, on the trees of the start. *)
Definition job_outcome (wc : N -> bool) (ps : str -> res document) (h : heap) (j : job) : res str :=
  match j with
  | Call mathml => snd (mathml_to_latex wc ps mathml [])
  | CallWith _ mathml => snd (mathml_to_latex wc ps mathml [])
  | Convert e => latex_of (tree_at h e)
  end.

(** The elements and the adapters that jobs work with. *)
Definition elements_of (jobs : list job) : list elem := flat_map (fun j => match j with Convert e => [e] | _ => [] end) jobs.
Definition adapters_of (jobs : list job) : list nat := flat_map (fun j => match j with CallWith i _ => [i] | _ => [] end) jobs.

(** The elements that the threads share: their dictionaries exist, and none of their mtables stands inside an mtable at one
    place and outside of all at another (C69). *)
Definition elements_fine (st : state) (ths : list (list job)) : Prop :=
  (forall e, In e (flat_map elements_of ths) -> in_heap (dicts st) e)
  /\ (forall e f, In e (flat_map elements_of ths) -> In f (flat_map elements_of ths) -> unmixed (dicts st) e f).
(** An adapter that is there at the start belongs to one thread. *)
Definition adapters_fine (st : state) (ths : list (list job)) : Prop :=
  (forall i, In i (flat_map adapters_of ths) -> i < length (xmls st))
  /\ (forall i j t u, i <> j -> nth_error ths i = Some t -> nth_error ths j = Some u ->
      forall k, In k (adapters_of t) -> ~ In k (adapters_of u)).

(** The state after the first [n] steps of an endless schedule. *)
Definition moment {A} (schedule : nat -> nat) (ps : list (prog A)) (st : state) (n : nat) : list (prog A) * state :=
  exec (map schedule (seq 0 n)) ps st.

(** The jobs of one thread in the model without steps. *)
Definition sequential_job (wc : N -> bool) (ps : str -> res document) (j : job) (h : heap) : heap * res str :=
  match j with
  | Call mathml => mathml_to_latex wc ps mathml h
  | CallWith _ mathml => mathml_to_latex wc ps mathml h
  | Convert e => convert_elem e h
  end.
Fixpoint sequential (wc : N -> bool) (ps : str -> res document) (jobs : list job) (h : heap) : heap * list (res str) :=
  match jobs with
  | [] => (h, [])
  | j :: jobs' => let (h1, r) := sequential_job wc ps j h in let (h2, rs) := sequential wc ps jobs' h1 in (h2, r :: rs)
  end.
