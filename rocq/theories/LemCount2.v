(** The parser of ModelExpat.v on a comment that is never closed (C74). *)
From Coq Require Import String.
From Verif Require Import SpecCount LemCount ModelExpat.
Local Open Scope string_scope.
Local Open Scope list_scope.

Lemma run_signs k : forall pos st acc, s_scan st = Comment 0 acc -> run false pos st (signs k) = Wrong 5 0.
Proof.
  induction k as [|k IH]; intros pos st acc E.
  - cbn [signs run]. unfold finish. rewrite E. reflexivity.
  - change (signs (S k)) with (60%N :: 32%N :: signs k). cbn [run]. unfold step. rewrite E. cbn [N.eqb Pos.eqb].
    change (xml_char 60) with true. cbn iota. unfold goto. cbn [s_scan with_scan N.eqb Pos.eqb]. change (xml_char 32) with true. cbn iota.
    eapply IH. reflexivity.
Qed.
Lemma find_signs k : forall pos st acc, s_scan st = Comment 0 acc -> find_doctype pos st (signs k) = None.
Proof.
  induction k as [|k IH]; intros pos st acc E; [reflexivity|].
  change (signs (S k)) with (60%N :: 32%N :: signs k). cbn [find_doctype]. rewrite E. unfold step. rewrite E. cbn [N.eqb Pos.eqb].
  change (xml_char 60) with true. cbn iota. unfold goto. cbn [s_scan with_scan N.eqb Pos.eqb]. change (xml_char 32) with true. cbn iota.
  eapply IH. reflexivity.
Qed.
Lemma signs_plain (p : N -> bool) k : p 60%N = false -> p 32%N = false -> existsb p (signs k) = false.
Proof.
  intros A B. induction k as [|k IH]; [reflexivity|]. change (signs (S k)) with (60%N :: 32%N :: signs k).
  cbn [existsb]. rewrite A, B. exact IH.
Qed.
Lemma parse_open_comment k : parse_text (open_comment k) = Raise (EExpat 5 1 0).
Proof.
  assert (R : read_text (open_comment k) = Wrong 5 0).
  { unfold open_comment. change (lit "<!--" ++ signs k) with (60%N :: 33%N :: 45%N :: 45%N :: signs k).
    change (read_text (60%N :: 33%N :: 45%N :: 45%N :: signs k)) with (read_body false (60%N :: 33%N :: 45%N :: 45%N :: signs k)).
    unfold read_body.
    change (find_doctype 0 start (60%N :: 33%N :: 45%N :: 45%N :: signs k))
      with (find_doctype 4 (with_scan start (Comment 0 [])) (signs k)).
    rewrite (find_signs k 4 _ []) by reflexivity.
    change (run false 0 start (60%N :: 33%N :: 45%N :: 45%N :: signs k))
      with (run false 4 (with_scan start (Comment 0 [])) (signs k)).
    apply (run_signs k 4 _ []). reflexivity. }
  change (parse_text (open_comment k)) with (parse_from 0 (open_comment k)). unfold parse_from. rewrite R. unfold open_comment. rewrite !existsb_app, !signs_plain by reflexivity. reflexivity.
Qed.
