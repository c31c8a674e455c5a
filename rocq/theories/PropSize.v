(** C40, C46: output size. *)
From Coq Require Import String.
From Verif Require Import SpecExamples LemSize.
Local Open Scope string_scope.
Local Open Scope list_scope.

(** C40 *)
Theorem C40_linear : forall t s, latex_of t = Ok s -> length s <= 100 * size t.
Proof. exact latex_size. Qed.
Print Assumptions C40_linear.
Example C40_example : let t := ela "mfenced" [("open", "{")] [el "mrow" [inner_tab]; mi "x"] in
  size t = 14 /\ exists s, latex_of t = Ok s /\ length s = 47.
Proof. vm_compute. split; [reflexivity|]. eexists. split; reflexivity. Qed.

(** C46: whole documents: linear in the size times the nesting of math elements ... *)
Theorem C46_documents : forall word_char parse_string xml d h s,
  read_as parse_string xml d -> snd (mathml_to_latex word_char parse_string xml h) = Ok s ->
  length s <= 100 * (document_math_depth d * document_size d).
Proof. exact convert_size. Qed.
Print Assumptions C46_documents.
(** ... and not linear in the size alone: no constant [c] is enough. *)
Theorem C46_not_linear : forall c, exists d s, document_latex d = Ok s /\ c * document_size d < length s.
Proof. exact not_linear. Qed.
Print Assumptions C46_not_linear.
Example C46_example :
  document_math_depth [del "math" [del "mrow" [del "math" [dleaf "mn" "12"]]]; del "math" []] = 2
  /\ document_latex [del "math" [del "mrow" [del "math" [dleaf "mn" "12"]]]; del "math" []] = Ok (lit "1212").
Proof. vm_compute. split; reflexivity. Qed.
