(** A comment that is never closed, full of less-than signs (C74). *)
From Coq Require Import String.
From Verif Require Export PyStr.
Local Open Scope string_scope.
Local Open Scope list_scope.

Fixpoint signs (k : nat) : str := match k with O => [] | S k' => lit "< " ++ signs k' end.
Definition open_comment (k : nat) : str := lit "<!--" ++ signs k.
