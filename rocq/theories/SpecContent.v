(** What of a document reaches the output (C63 - C65). *)
From Coq Require Import String.
From Verif Require Export SpecEquiv.
Local Open Scope string_scope.
Local Open Scope list_scope.

(** ** C63: texts *)
(** The same tree up to the texts of elements that are not mi, mo, mn or mtext. *)
Inductive same_token_texts : tree -> tree -> Prop :=
| same_token_texts_T n v v' ch ch' a :
    (In n (map lit ["mi"; "mo"; "mn"; "mtext"]) -> v = v') -> Forall2 same_token_texts ch ch' ->
    same_token_texts (T n v ch a) (T n v' ch' a).

(** ** C64: names *)
(** A name that is not made of lower-case ASCII letters only: one with a prefix, a capital letter, a digit ... *)
Definition foreign_name (n : str) : Prop := exists c, In c n /\ ~ (97 <= c <= 122)%N.

(** ** C65: renaming letters and digits *)
Definition letter (c : N) : Prop := (65 <= c <= 90 \/ 97 <= c <= 122)%N.
Definition digit (c : N) : Prop := (48 <= c <= 57)%N.
(** Letters to letters, digits to digits, nothing else changes. *)
Definition renaming (s : N -> N) : Prop :=
  forall c, (letter c -> letter (s c)) /\ (digit c -> digit (s c)) /\ (~ letter c -> ~ digit c -> s c = c).
(** In mi and mo: texts of letters, digits and spaces; in mn: ASCII texts without a backslash; in mtext: any text. *)
Definition renamed_text (n v : str) : bool :=
  if str_eqb n (lit "mi") then forallb plain_text_char v
  else if str_eqb n (lit "mo") then forallb plain_text_char v
  else if str_eqb n (lit "mn") then forallb (fun c => (c <? 128) && negb (c =? 92))%N v
  else str_eqb n (lit "mtext").
Fixpoint rename (s : N -> N) (t : tree) : tree :=
  match t with T n v ch a => T n (if renamed_text n v then map s v else v) (map (rename s) ch) a end.
(** A text with places for renamed characters. *)
Inductive place : Type := Fixed (c : N) | Renamed (c : N).
Definition fill (s : N -> N) (p : list place) : str := map (fun x => match x with Fixed c => c | Renamed c => s c end) p.
