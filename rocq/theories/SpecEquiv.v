(** Specification of C10, C16 - C18: trees that must convert alike. *)
From Coq Require Import String.
From Verif Require Export SpecHeap SpecText SpecDoc.
Local Open Scope string_scope.
Local Open Scope list_scope.

(** The tags with a converter of their own. *)
Definition library_tags : list string :=
  ["math"; "mi"; "mo"; "mn"; "mtext"; "msqrt"; "mfenced"; "mfrac"; "mroot"; "maction"; "menclose"; "merror";
   "mphantom"; "msup"; "msub"; "msubsup"; "mmultiscripts"; "munderover"; "munder"; "mover"; "mtable"; "mtr"].
(** mrow, mpadded and everything the library does not know. *)
Definition row_tag (n : str) : Prop := ~ In n (map lit library_tags).

(** C16: the same tree up to the names of rows; mprescripts keeps its name. *)
Inductive renamed : tree -> tree -> Prop :=
| renamed_T n n' v ch ch' a :
    n = n' \/ (row_tag n /\ row_tag n' /\ n <> lit "mprescripts" /\ n' <> lit "mprescripts") ->
    Forall2 renamed ch ch' -> renamed (T n v ch a) (T n' v ch' a).

(** C17: the attributes an element looks at. *)
Definition looked_at : list (string * list string) :=
  [("mi", ["mathvariant"]); ("mtext", ["mathvariant"]); ("mfenced", ["open"; "close"; "separators"]);
   ("mfrac", ["bevelled"]); ("maction", ["actiontype"]); ("menclose", ["notation"]); ("mtable", ["innerTable"])].
Inductive same_looked_at : tree -> tree -> Prop :=
| same_T n v ch ch' a a' :
    (forall s ks k, In (s, ks) looked_at -> n = lit s -> In k ks -> dget a (lit k) = dget a' (lit k)) ->
    Forall2 same_looked_at ch ch' -> same_looked_at (T n v ch a) (T n v ch' a').

(** C10: the same tree up to the insides of mphantom elements.  An mtable may come or go inside an mphantom only if no
    mfenced encloses it ([fenced]). *)
Inductive same_but_phantoms : bool -> tree -> tree -> Prop :=
| sbp_phantom fenced v v' ch ch' a a' :
    (fenced = true -> existsb has_table ch = existsb has_table ch') ->
    same_but_phantoms fenced (T (lit "mphantom") v ch a) (T (lit "mphantom") v' ch' a')
| sbp_other fenced n v ch ch' a :
    Forall2 (same_but_phantoms (fenced || str_eqb n (lit "mfenced"))) ch ch' ->
    same_but_phantoms fenced (T n v ch a) (T n v ch' a).

(** C18: some rows, at the top of a list of elements, replaced by what they contain. *)
Inductive ungrouped : list tree -> list tree -> Prop :=
| ungrouped_nil : ungrouped [] []
| ungrouped_keep t l l' : ungrouped l l' -> ungrouped (t :: l) (t :: l')
| ungrouped_open n v ch a l l' : row_tag n -> ungrouped (ch ++ l) l' -> ungrouped (T n v ch a :: l) l'.
