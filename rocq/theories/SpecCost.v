(** Specification of the number of steps (C72). *)
From Coq Require Import String.
From Verif Require Export SpecThreads.
Local Open Scope string_scope.
Local Open Scope list_scope.

(** What is counted: [w None] for an access to a dictionary or an adapter, [w (Some v)] for a call of the library's functions
    that run once for each element. *)
Definition weights := option visit -> nat.
Definition all_steps : weights := fun _ => 1.
Definition calls_of (v : visit) : weights := fun o =>
  match o, v with
  | Some Making, Making | Some Entering, Entering | Some Leaving, Leaving | Some Flagging, Flagging | Some Searching, Searching => 1
  | _, _ => 0
  end.
Definition accesses : weights := fun o => match o with None => 1 | Some _ => 0 end.
Definition visits_below : weights := fun o => match o with Some Flagging | Some Searching => 1 | _ => 0 end.

(** The weight of all steps of a program that runs alone. *)
Fixpoint tally {A} (w : weights) (p : prog A) (st : state) {struct p} : nat :=
  match p with
  | Done _ => 0
  | Look l k => w None + tally w (k (hget (dicts st) l)) st
  | Put l key value k => w None + tally w k (State (hset (dicts st) l (dset (hget (dicts st) l) key value)) (xmls st))
  | Alloc d k => w None + tally w (k (length (dicts st))) (State (dicts st ++ [d]) (xmls st))
  | GetXml i k => w None + tally w (k (nth i (xmls st) [])) st
  | SetXml i xml k => w None + tally w k (State (dicts st) (put_nth (xmls st) i xml))
  | NewAdapter k => w None + tally w (k (length (xmls st))) (State (dicts st) (xmls st ++ [[]]))
  | Mark v k => w (Some v) + tally w k st
  end.
(** The greatest number of calls of [convert()] that are under way at one time, [d] being under way already. *)
Fixpoint deepest {A} (p : prog A) (st : state) (d : nat) {struct p} : nat :=
  match p with
  | Done _ => d
  | Look l k => deepest (k (hget (dicts st) l)) st d
  | Put l key value k => deepest k (State (hset (dicts st) l (dset (hget (dicts st) l) key value)) (xmls st)) d
  | Alloc x k => deepest (k (length (dicts st))) (State (dicts st ++ [x]) (xmls st)) d
  | GetXml i k => deepest (k (nth i (xmls st) [])) st d
  | SetXml i xml k => deepest k (State (dicts st) (put_nth (xmls st) i xml)) d
  | NewAdapter k => deepest (k (length (xmls st))) (State (dicts st) (xmls st ++ [[]])) d
  | Mark Entering k => Nat.max (S d) (deepest k st (S d))
  | Mark Leaving k => deepest k st (pred d)
  | Mark _ k => deepest k st d
  end.

(** The number of elements of a tree, the length of all texts, the number of levels. *)
Fixpoint places (e : elem) : nat := match e with Elem _ _ ch _ => S (list_sum (map places ch)) end.
Fixpoint text_length (e : elem) : nat := match e with Elem _ v ch _ => length v + list_sum (map text_length ch) end.
Fixpoint levels (e : elem) : nat := match e with Elem _ _ ch _ => S (list_max (map levels ch)) end.
(** The greatest number of mtables and mfenceds on the way from the root to an element. *)
Fixpoint nesting (e : elem) : nat :=
  match e with
  | Elem n _ ch _ => (if str_eqb n (lit "mtable") || str_eqb n (lit "mfenced") then 1 else 0) + list_max (map nesting ch)
  end.

(** The bound, by the names of the elements: the converter of an element is made once and run once; at most three accesses
    and one for each character of the text; an mtable runs over all elements below it once, with an access for each, and
    so does an mfenced, without accesses. *)
Definition overhead (w : weights) (name : str) (below : nat) : nat :=
  if str_eqb name (lit "mtable") then (w (Some Flagging) + w None) * below
  else if str_eqb name (lit "mfenced") then w (Some Searching) * below else 0.
Fixpoint effort (w : weights) (e : elem) : nat :=
  match e with
  | Elem n v ch _ =>
      w (Some Making) + w (Some Entering) + w (Some Leaving) + w None * (3 + length v)
      + overhead w n (list_sum (map places ch)) + list_sum (map (effort w) ch)
  end.

(** How often the schedule names thread [i]. *)
Definition turns (i : nat) (schedule : list nat) : nat := length (filter (Nat.eqb i) schedule).

(** The elements that a text becomes, an adapter being made first: converter.py:6-7. *)
Definition reading (word_char : N -> bool) (parse_string : str -> res document) (mathml : str) : prog (list elem) :=
  NewAdapter (fun i => s_adapter_convert word_char parse_string i mathml).

(** mfenced in mfenced ..., [k] of them. *)
Fixpoint fences (k : nat) : elem :=
  match k with
  | O => Elem (lit "mn") (lit "1") [] 0
  | S k' => Elem (lit "mfenced") [] [fences k'] 0
  end.
