(** The depth of calls for texts that need repair (C83). *)
From Coq Require Import String.
From Verif Require SpecRecovery LemRecovery LemCount.
From Verif Require Export LemDocHeight.
From Verif Require Export SpecDepth LemPyMain.
Local Open Scope string_scope.
Local Open Scope list_scope.

Lemma read_found wc ps n : forall x last, match snd (parse_loop wc ps n x last) with
  | Ok ns => ns = get_elements_by_tag_name (document_read wc ps n x) (lit "math")
  | Raise _ => True
  end.
Proof.
  induction n as [|n IH]; intros x last; cbn [parse_loop document_read].
  - destruct last; [exact I | reflexivity].
  - destruct (ps x) as [d|e]; [reflexivity|]. destruct (fix_error wc x e) as [y|e']; [apply IH | exact I].
Qed.
Lemma read_height wc n : forall x, ~ In 10%N x -> 2 * document_height (document_read wc parse_text n x) <= length x.
Proof.
  induction n as [|n IH]; intros x N; cbn [document_read]; [cbn; lia|].
  destruct (parse_text x) as [d|e] eqn:E; [apply parsed_height; exact E|]. destruct (fix_error wc x e) as [y|e'] eqn:F; [|cbn; lia].
  destruct (LemCount.fix_length _ _ _ _ N F) as (L & M). specialize (IH y M). lia.
Qed.
Lemma first_length x : length (first_text x) <= length x.
Proof.
  unfold first_text. rewrite LemRecovery.clean_spec. unfold SpecRecovery.clean.
  pose proof (proj1 (LemRecovery.subseq_length _ _ (LemRecovery.deleting_subseq (fun s0 => match SpecRecovery.after (lit "mml:") s0 with Some _ => length (lit "mml:") | None => 0 end) (SpecRecovery.no_line_breaks x) 0))) as Q.
  pose proof (LemCount.filter_shorter (fun c => negb (SpecRecovery.line_break c)) x) as Q'. unfold SpecRecovery.without. unfold SpecRecovery.no_line_breaks in *. lia.
Qed.
Theorem source_repaired wc ps x h S :
  exists S', evs (Nat.max (2 * document_height (document_read wc ps 5 (first_text x)) + 16) (length (first_text x) + 14))
    (fun n => call wc ps n (VMethod VNone "MathMLToLaTeX" "convert") [VStr x] []) S S' (LemPySim.outcome VStr (snd (mathml_to_latex wc ps x h))).
Proof.
  destruct (source_length wc ps x h S) as (S' & H). exists S'. eapply evs_more; [exact H|].
  assert (Q : list_max (map node_height (found_nodes wc ps x)) <= document_height (document_read wc ps 5 (first_text x))).
  { unfold found_nodes. pose proof (read_found wc ps 5 (clean x) None) as R. destruct (snd (parse_loop wc ps 5 (clean x) None)) as [ns|e]; [|cbn; lia].
    rewrite R. apply all_found_height. }
  change (clean x) with (first_text x). lia.
Qed.
Theorem source_text_length wc x h S :
  exists S', evs (length x + 16) (fun n => call wc parse_text n (VMethod VNone "MathMLToLaTeX" "convert") [VStr x] []) S S' (LemPySim.outcome VStr (snd (mathml_to_latex wc parse_text x h))).
Proof.
  destruct (source_repaired wc parse_text x h S) as (S' & H). exists S'. eapply evs_more; [exact H|].
  pose proof (read_height wc 5 (first_text x) (one_line x)). pose proof (first_length x). lia.
Qed.
