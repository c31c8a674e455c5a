(** The source and the model have the same results (for C85). *)
From Coq Require Import String.
From Verif Require Export LemDoc LemXml3 LemPyMain SpecSource.
Local Open Scope string_scope.
Local Open Scope list_scope.

Lemma source_total wc ps x S : exists S', source_ends wc ps x S S' (as_source (snd (mathml_to_latex wc ps x []))).
Proof. exact (source_ok wc ps x [] S). Qed.
Lemma source_same wc ps x S S' o : source_ends wc ps x S S' o -> o = as_source (snd (mathml_to_latex wc ps x [])).
Proof.
  intros (n1 & H1). destruct (source_total wc ps x S) as (S2 & n2 & H2). specialize (H1 (n1 + n2) ltac:(lia)). specialize (H2 (n1 + n2) ltac:(lia)).
  rewrite H1 in H2. injection H2 as _ E. exact E.
Qed.
Lemma source_value wc ps x S S' v : source_ends wc ps x S S' (Done v) -> exists s, v = VStr s /\ snd (mathml_to_latex wc ps x []) = Ok s.
Proof. intros H. apply source_same in H. destruct (snd _) as [s|e]; [|discriminate H]. injection H as ->. eauto. Qed.
Lemma source_error wc ps x S S' v : source_ends wc ps x S S' (Raised v) -> exists e, v = parser_error e /\ snd (mathml_to_latex wc ps x []) = Raise e.
Proof. intros H. apply source_same in H. destruct (snd _) as [s|e]; [discriminate H|]. injection H as ->. eauto. Qed.
