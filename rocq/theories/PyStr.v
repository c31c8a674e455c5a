(** Python strings, dictionaries and the string methods the library calls.

    A Python [str] is a list of code points.  Nothing here is library code of /repo:
    it is the part of Python the library relies on (CPython 3.7+ semantics). *)
From Coq Require Import String Ascii.
From Coq Require Export NArith ZArith Bool Lia List.
Export ListNotations.

Definition str := list N.

(** Code points of an ASCII literal. *)
Definition lit (s : string) : str := map N_of_ascii (list_ascii_of_string s).

Fixpoint str_eqb (a b : str) : bool :=
  match a, b with
  | [], [] => true
  | x :: a', y :: b' => N.eqb x y && str_eqb a' b'
  | _, _ => false
  end.

(** Truth value of a [str]: false exactly for "". *)
Definition truthy (s : str) : bool := match s with [] => false | _ => true end.

(** [s in [..]] for a list of strings. *)
Definition str_in (s : str) (l : list str) : bool := existsb (str_eqb s) l.

(** [str.isspace] on one code point: the set used by [str.split()], [str.strip()] and by [\s]
    of [re] for str patterns (CPython, _PyUnicode_IsWhitespace). *)
Definition is_space (c : N) : bool :=
  (((9 <=? c) && (c <=? 13)) || ((28 <=? c) && (c <=? 32)) || (c =? 133) || (c =? 160)
  || (c =? 5760) || ((8192 <=? c) && (c <=? 8202)) || (c =? 8232) || (c =? 8233)
  || (c =? 8239) || (c =? 8287) || (c =? 12288))%N.

(** [str.split()] without arguments: maximal runs of non-whitespace. [cur] is the current word,
    reversed. *)
Fixpoint split_acc (cur : str) (s : str) : list str :=
  match s with
  | [] => match cur with [] => [] | _ => [rev cur] end
  | c :: s' =>
      if is_space c then
        match cur with [] => split_acc [] s' | _ => rev cur :: split_acc [] s' end
      else split_acc (c :: cur) s'
  end.
Definition split (s : str) : list str := split_acc [] s.

(** [sep.join(l)] *)
Fixpoint join (sep : str) (l : list str) : str :=
  match l with
  | [] => []
  | [x] => x
  | x :: l' => x ++ sep ++ join sep l'
  end.

(** [s.lstrip()], [s.rstrip()], [s.strip()] *)
Fixpoint lstrip (s : str) : str :=
  match s with
  | [] => []
  | c :: s' => if is_space c then lstrip s' else s
  end.
Definition rstrip (s : str) : str := rev (lstrip (rev s)).
Definition strip (s : str) : str := rstrip (lstrip s).

(** [s.split(c)] for a one-character separator: always at least one piece. *)
Fixpoint split_on (c : N) (s : str) : list str :=
  match s with
  | [] => [[]]
  | x :: s' =>
      if N.eqb x c then [] :: split_on c s'
      else match split_on c s' with
           | w :: ws => (x :: w) :: ws
           | [] => [[x]]
           end
  end.

(** [l[i]] for a Python list, negative indices counting from the end; [None] is IndexError. *)
Definition py_index {A} (l : list A) (i : Z) : option A :=
  if (0 <=? i)%Z then nth_error l (Z.to_nat i)
  else if (Z.of_nat (length l) + i <? 0)%Z then None
  else nth_error l (Z.to_nat (Z.of_nat (length l) + i)).

(** Dictionaries: association lists with unique keys. [d.get(k)], [d[k] = v]. *)
Definition dict (A : Type) := list (str * A).
Fixpoint dget {A} (d : dict A) (k : str) : option A :=
  match d with
  | [] => None
  | (k', v) :: d' => if str_eqb k k' then Some v else dget d' k
  end.
Fixpoint dset {A} (d : dict A) (k : str) (v : A) : dict A :=
  match d with
  | [] => [(k, v)]
  | (k', v') :: d' => if str_eqb k k' then (k', v) :: d' else (k', v') :: dset d' k v
  end.
(** [d.get(k, dflt)] *)
Definition dget_or {A} (d : dict A) (k : str) (dflt : A) : A :=
  match dget d k with Some v => v | None => dflt end.

(** [str(n)] for a natural number: decimal digits. *)
Fixpoint digits_fuel (fuel : nat) (n : N) (acc : str) : str :=
  match fuel with
  | O => acc
  | S f =>
      let acc' := (48 + n mod 10)%N :: acc in
      if (n / 10 =? 0)%N then acc' else digits_fuel f (n / 10)%N acc'
  end.
Definition nat_str (n : nat) : str := digits_fuel (S (N.to_nat (N.log2 (N.of_nat n)))) (N.of_nat n) [].

(** Exceptions and results. *)
Inductive exn : Type :=
| EInvalidChildren (tag : str) (expected actual : nat) (comparison : str)
| EIndex                                   (* IndexError *)
| EExpat (code lineno offset : nat)        (* xml.parsers.expat.ExpatError *)
| EOther (what : nat).                     (* any other exception of the XML parser *)

Inductive res (A : Type) : Type :=
| Ok (a : A)
| Raise (e : exn).
Arguments Ok {A} a.
Arguments Raise {A} e.
