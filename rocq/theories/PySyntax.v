(** Syntax of the part of Python that /repo is written in.  PySource.v, made by tools/make_source.py from the text of
    /repo, has the source files in this form; PySem.v says what they mean. *)
From Coq Require Import String.
From Verif Require Export PyStr.

Inductive binop := OpAdd | OpSub.
Inductive cmpop := OpEq | OpNotEq | OpLt | OpLtE | OpGt | OpGtE | OpIs | OpIsNot | OpIn | OpNotIn.

Inductive expr : Type :=
| PName (x : string)                                             (* a local variable *)
| PGlobal (x : string)                                           (* a class, function, table or module of the library, or a builtin *)
| PStr (s : str) | PInt (z : Z) | PBool (b : bool) | PNone
| PAttr (e : expr) (a : string)                                  (* e.a *)
| PCall (f : expr) (args : list expr) (kws : list (string * expr))
| PSuper                                                         (* super() *)
| PIndex (e i : expr)                                            (* e[i] *)
| PSlice (e lo hi : expr)                                        (* e[lo:hi] *)
| PBin (op : binop) (a b : expr)
| PCmp (op : cmpop) (a b : expr)
| PAnd (a b : expr) | POr (a b : expr) | PNot (a : expr)
| PIf (c a b : expr)                                             (* a if c else b *)
| PList (l : list expr)
| PDict (l : list (expr * expr))
| PFormat (l : list expr)                                        (* f"...": the pieces *)
| PComp (e : expr) (x : string) (it : expr) (c : option expr).   (* [e for x in it if c]; also a generator *)

Inductive stmt : Type :=
| SExpr (e : expr)
| SAssign (x : string) (e : expr)                                (* x = e; x += e is x = x + e *)
| SSetAttr (o : expr) (a : string) (e : expr)                    (* o.a = e *)
| SSetItem (o k e : expr)                                        (* o[k] = e *)
| SAppend (x : string) (e : expr)                                (* x.append(e) *)
| SSuperInit (args : list expr)                                  (* super().__init__(...) *)
| SReturn (e : expr)
| SIf (c : expr) (a b : stmt)
| SFor (xs : list string) (it : expr) (body : stmt)
| SWhile (c : expr) (body : stmt)
| SRaise (e : expr)
| STry (body : stmt) (x : string) (handler : stmt)               (* except Exception as x *)
| SContinue
| SPass
| SSeq (a b : stmt).                                             (* a block *)

Inductive kind := Plain | Static | Property.

Record func := Func { f_kind : kind; f_params : list (string * option expr); f_body : stmt }.
(** A class: its base, its members of an enumeration, its methods.  [assigned]: instances may be changed after they are made. *)
Record class := Class { c_base : string; c_members : list string; c_assigned : bool; c_methods : list (string * func) }.
