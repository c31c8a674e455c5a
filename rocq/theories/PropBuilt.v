(** C75: signs put together from others. *)
From Coq Require Import String.
From Verif Require Import SpecExamples SpecBuilt LemBuilt.
Local Open Scope string_scope.
Local Open Scope list_scope.

(** A sign with a bar, a dot, a stroke, or one sign above or beside another, gives LaTeX that draws just that ... *)
Theorem C75_built : forall c f v ch a, In (c, f) built_signs -> shows v c ->
  exists s, latex_of (T (lit "mo") v ch a) = Ok s /\ In (squeeze s) (drawings f).
Proof. exact built_drawn. Qed.
Print Assumptions C75_built.
(** ... but for these: "superset above leftwards arrow" has the arrow turned, the dot below a plus is a circle, the circle above one is a dot. *)
Theorem C75_built_refuted : forall c f s v ch a, In (c, f, s) misbuilt -> shows v c ->
  latex_of (T (lit "mo") v ch a) = Ok (lit s) /\ ~ In (squeeze (lit s)) (drawings f).
Proof. exact misbuilt_drawn. Qed.
Print Assumptions C75_built_refuted.
(** The reverse solidus with a stroke gives a text with a backspace character in it. *)
Theorem C75_backspace_refuted : forall v ch a, shows v 10743 ->
  latex_of (T (lit "mo") v ch a) = Ok (lit "hcancel{" ++ [8%N] ++ lit "ackslash}").
Proof. intros v ch a S. apply (mo_sym v 10743); [vm_compute; reflexivity|exact S]. Qed.
Print Assumptions C75_backspace_refuted.
(** Signs that come out as a plainer one. *)
Theorem C75_plainer : forall s cs c v ch a, In (s, cs) plainer -> In c cs -> shows v c -> latex_of (T (lit "mo") v ch a) = Ok (lit s).
Proof. exact plainer_drawn. Qed.
Print Assumptions C75_plainer.

Example C75_example :
  In (10866%N, Over (Sign ["+"]) (Sign ["="])) built_signs
  /\ drawings (Over (Sign ["+"]) (Sign ["="])) = [lit "\overset{+}{=}"; lit "\underset{=}{+}"]
  /\ map (fun c => latex_of (T (lit "mo") [c] [] [])) [10866; 10847; 8798; 8789]%N
     = [Ok (lit "\underset{=}{+}"); Ok (lit "\underline{\wedge}"); Ok (lit "\overset{m}{=} "); Ok (lit "=:")]
  /\ map (fun c => latex_of (T (lit "mo") [c] [] [])) [10619; 10789; 10786; 8954]%N
     = [Ok (lit "\underset{\rightarrow}{\supset}"); Ok (lit "\underset{\circ}{+}"); Ok (lit "\dot{+}"); Ok (lit "\in")].
Proof. split; [repeat (try (left; reflexivity); right)|]. vm_compute. repeat split. Qed.
