(** Specification of converter objects: making a converter and running it are separate steps
    (el_to_tex/adapter.py:29-35, then [convert()]), and other steps may come in between. *)
From Coq Require Import String.
From Verif Require Export SpecHeap.
Local Open Scope string_scope.
Local Open Scope list_scope.

(** One step of a program that holds several converters: make one for an element, or run the i-th one made. *)
Inductive action : Type := New (e : elem) | Run (i : nat).

(** The steps in order: the final heap and the outcomes of the runs. *)
Fixpoint perform (acts : list action) (made : list converter) (h : heap) : heap * list (res str) :=
  match acts with
  | [] => (h, [])
  | New e :: acts' => let (h1, c) := to_latex_converter e h in perform acts' (made ++ [c]) h1
  | Run i :: acts' =>
      match nth_error made i with
      | Some c => let (h1, r) := c h in let (h2, rs) := perform acts' made h1 in (h2, r :: rs)
      | None => perform acts' made h
      end
  end.

(** What the runs should give: the LaTeX of the tree each element held at the start. *)
Fixpoint outcomes (h0 : heap) (acts : list action) (subjects : list elem) : list (res str) :=
  match acts with
  | [] => []
  | New e :: acts' => outcomes h0 acts' (subjects ++ [e])
  | Run i :: acts' =>
      match nth_error subjects i with
      | Some e => latex_of (tree_at h0 e) :: outcomes h0 acts' subjects
      | None => outcomes h0 acts' subjects
      end
  end.

Definition subjects_of (acts : list action) : list elem :=
  flat_map (fun x => match x with New e => [e] | Run _ => [] end) acts.

(** Two elements are the same object or share no attribute dictionary. *)
Definition apart (es : list elem) : Prop :=
  forall e f, In e es -> In f es -> e = f \/ forall l, In l (locs e) -> ~ In l (locs f).

(** The tags whose converter looks at the attributes when it is made. *)
Definition reads_early (n : str) : bool := str_in n [lit "mfenced"; lit "menclose"].

(** Every mtable strictly below an mtable [e] has a non-empty innerTable attribute. *)
Definition inner_flags_set (h : heap) (e : elem) : Prop :=
  is_table (e_name e) = true -> forall x, below_elem e x -> is_table (e_name x) = true ->
  truthy (attr (hget h (e_attributes x)) "innerTable") = true.
