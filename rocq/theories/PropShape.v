(** C07, C08: which trees convert, and what is reported otherwise. *)
From Coq Require Import String.
From Verif Require Import SpecExamples LemShape.
Local Open Scope string_scope.
Local Open Scope list_scope.

(** C07 *)
Theorem C07_exactly_well_formed : forall t,
  (exists s, latex_of t = Ok s) <-> (forall u, visits t u -> own_fault u = None).
Proof. exact converts_iff. Qed.
Print Assumptions C07_exactly_well_formed.
Example C07_example :
  (forall u, visits (el "math" [el "mphantom" [el "mfrac" []]; ela "maction" [("actiontype", "x")] [mi "a"; el "msup" []]]) u
     -> own_fault u = None)
  /\ own_fault (el "mfrac" []) <> None /\ own_fault (el "msup" []) <> None.
Proof.
  split; [|split; discriminate]. apply converts_iff. eexists. vm_compute. reflexivity.
Qed.

(** C08: the exception is that of the first fault ... *)
Theorem C08_first_fault : forall t e, latex_of t = Raise e <-> first_fault t e.
Proof. exact raises_iff. Qed.
Print Assumptions C08_first_fault.
(** ... which is determined, and belongs to a visited element; nothing else is raised. *)
Theorem C08_kinds : forall t e, latex_of t = Raise e -> exists u, visits t u /\
  ((exists k, In (t_name u, k) (map (fun p => (lit (fst p), snd p)) exact_counts) /\ length (t_children u) <> k
      /\ e = EInvalidChildren (t_name u) k (length (t_children u)) (lit "exactly"))
   \/ (t_name u = lit "mmultiscripts" /\ length (t_children u) < 3
      /\ e = EInvalidChildren (t_name u) 3 (length (t_children u)) (lit "at least"))
   \/ (t_name u = lit "maction" /\ t_children u = [] /\ attr (t_attributes u) "actiontype" <> []
      /\ attr (t_attributes u) "actiontype" <> lit "toggle" /\ e = EIndex)).
Proof. exact raised_kinds. Qed.
Print Assumptions C08_kinds.
(** The message, with the numbers in decimal. *)
Theorem C08_message : forall tag k n how, exists sk sn, numeral sk k /\ numeral sn n /\
  error_message (EInvalidChildren tag k n how)
  = tag ++ lit " tag must have " ++ how ++ lit " " ++ sk ++ lit " children. It's actually " ++ sn.
Proof. exact (fun tag k n how => ex_intro _ _ (ex_intro _ _ (conj (nat_str_numeral k) (conj (nat_str_numeral n) eq_refl)))). Qed.
Print Assumptions C08_message.
Example C08_example :
  latex_of (el "math" [mi "x"; el "mroot" [el "munder" [mi "a"]; el "mfrac" []]; el "msup" []])
  = Raise (EInvalidChildren (lit "munder") 2 1 (lit "exactly"))
  /\ error_message (EInvalidChildren (lit "munder") 2 12 (lit "exactly"))
     = lit "munder tag must have exactly 2 children. It's actually 12".
Proof. vm_compute. split; reflexivity. Qed.
