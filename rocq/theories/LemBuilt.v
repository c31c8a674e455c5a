(** Signs put together from others (C75). *)
From Coq Require Import String.
From Verif Require Export LemOther LemOperators SpecBuilt.
Local Open Scope string_scope.
Local Open Scope list_scope.

Definition drawn_as (f : figure) (s : str) : bool := existsb (str_eqb (squeeze s)) (drawings f).
Lemma drawn_as_spec f s : drawn_as f s = true <-> In (squeeze s) (drawings f).
Proof.
  unfold drawn_as. rewrite existsb_exists. split.
  - intros (x & I & E). apply str_eqb_eq in E. rewrite E. exact I.
  - intro I. exists (squeeze s). split; [exact I|apply str_eqb_refl].
Qed.
Lemma built_sweep : forallb (fun e : N * figure => negb (is_space (fst e)) && drawn_as (snd e) (symbol mo_tables [fst e])) built_signs = true.
Proof. vm_compute. reflexivity. Qed.
Lemma misbuilt_sweep : forallb (fun e : N * figure * string =>
  sym mo_tables (fst (fst e)) (lit (snd e)) && negb (drawn_as (snd (fst e)) (lit (snd e)))) misbuilt = true.
Proof. vm_compute. reflexivity. Qed.
Lemma plainer_sweep : forallb (fun e : string * list N => forallb (fun c => sym mo_tables c (lit (fst e))) (snd e)) plainer = true.
Proof. vm_compute. reflexivity. Qed.

Lemma built_drawn c f v ch a : In (c, f) built_signs -> shows v c ->
  exists s, latex_of (T (lit "mo") v ch a) = Ok s /\ In (squeeze s) (drawings f).
Proof.
  intros I S. pose proof (proj1 (forallb_forall _ _) built_sweep _ I) as H. cbv beta in H. cbn [fst snd] in H. apply andb_prop in H as [W H].
  exists (symbol mo_tables [c]). split; [|apply drawn_as_spec; exact H].
  apply (mo_shows v c ch a _ S); [|reflexivity]. apply not_white. destruct (is_space c); [discriminate W|reflexivity].
Qed.
Lemma misbuilt_drawn c f s v ch a : In (c, f, s) misbuilt -> shows v c ->
  latex_of (T (lit "mo") v ch a) = Ok (lit s) /\ ~ In (squeeze (lit s)) (drawings f).
Proof.
  intros I S. pose proof (proj1 (forallb_forall _ _) misbuilt_sweep _ I) as H. cbv beta in H. cbn [fst snd] in H. apply andb_prop in H as [H K].
  split; [eapply mo_sym; eauto|]. rewrite <- drawn_as_spec. intro X. rewrite X in K. discriminate K.
Qed.
Lemma plainer_drawn s cs c v ch a : In (s, cs) plainer -> In c cs -> shows v c -> latex_of (T (lit "mo") v ch a) = Ok (lit s).
Proof.
  intros I J S. pose proof (proj1 (forallb_forall _ _) plainer_sweep _ I) as H. cbv beta in H.
  pose proof (proj1 (forallb_forall _ _) H _ J) as K. cbv beta in K. cbn [fst] in K. eapply mo_sym; eauto.
Qed.
