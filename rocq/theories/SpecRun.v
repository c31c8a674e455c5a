(** What running the source in several threads means (C82), and converting elements made by hand (C81). *)
From Coq Require Import String.
From Verif Require Export SpecSource.
Local Open Scope string_scope.
Local Open Scope list_scope.

(** One thread gets a turn: one access to the memory, or nothing if it has finished. *)
Definition turn {A} (m : MM A) (S : memory) : MM A * memory :=
  match m with
  | Act f k => match f S with Some (S', v) => (k v, S') | None => (PySem.Wrong, S) end
  | _ => (m, S)
  end.
(** The threads [ms] share the memory; [schedule]: whose turn it is. *)
Fixpoint interleave {A} (schedule : list nat) (ms : list (MM A)) (S : memory) : list (MM A) * memory :=
  match schedule with
  | [] => (ms, S)
  | i :: rest =>
      match nth_error ms i with
      | Some m => let (m', S') := turn m S in interleave rest (put ms i m') S'
      | None => interleave rest ms S
      end
  end.
(** A thread calls [MathMLToLaTeX.convert] with one text after the other and collects what the calls end with. *)
Definition one_call (m : MM value) : MM (out value) := catch (fun e => Ret (Raised e)) (v <~ m ; Ret (Done v)).
Definition thread (word_char : N -> bool) (parse_string : str -> res document) (n : nat) (xs : list str) : MM (list (out value)) :=
  mapM (fun x => one_call (source_convert word_char parse_string x n)) xs.

(** Expressions of Python in memory [S], with names: [v] is what they end with for every bound from some on. *)
Definition expression_ends (word_char : N -> bool) (parse_string : str -> res document) (r : names) (e : expr) (S S' : memory) (o : out value) : Prop :=
  exists n0, forall n, n0 <= n -> PySem.run (eval (call word_char parse_string n) r e) S = (S', o).
(** [MathMLElementToLatexConverterAdapter().to_latex_converter(element)] and [converter.convert()] *)
Definition make_expression : expr :=
  PCall (PAttr (PCall (PGlobal "MathMLElementToLatexConverterAdapter") [] []) "to_latex_converter") [PName "element"] [].
Definition convert_expression : expr := PCall (PAttr (PName "converter") "convert") [] [].
(** The object that an element is: its attributes are the dictionary with the number that the model gives it. *)
Fixpoint object_of (e : elem) : value :=
  match e with
  | Elem n v ch a => VObj "GenericMathMLElement" [("_name", VStr n); ("_value", VStr v); ("_children", VList (map object_of ch)); ("_attributes", VDict a)]
  end.
(** The first [n] dictionaries of the memory are those of the heap. *)
Definition holds (n : nat) (h : heap) (S : memory) : Prop := n <= length h /\ forall l, l < n -> nth_error (dicts S) l = nth_error h l.
