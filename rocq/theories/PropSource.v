(** C79, C80: the source of the library, run. *)
From Coq Require Import String.
From Verif Require Import SpecExamples SpecSource LemPyMain.
Local Open Scope string_scope.
Local Open Scope list_scope.

(** C79: in every memory, whatever the heap of the model, MathMLToLaTeX.convert of the source does what the model does. *)
Theorem C79_source : forall word_char parse_string x h S,
  exists S', source_ends word_char parse_string x S S' (as_source (snd (mathml_to_latex word_char parse_string x h))).
Proof. intros wc ps x h S. exact (source_ok wc ps x h S). Qed.
Print Assumptions C79_source.
(** So earlier calls do not change what a call gives. *)
Theorem C79_any_memory : forall word_char parse_string x S1 S2, exists o S1' S2',
  source_ends word_char parse_string x S1 S1' o /\ source_ends word_char parse_string x S2 S2' o.
Proof.
  intros wc ps x S1 S2. destruct (source_ok wc ps x [] S1) as (S1' & E1). destruct (source_ok wc ps x [] S2) as (S2' & E2). eauto 6.
Qed.
Print Assumptions C79_any_memory.

(** C80: a call ends, with a string or one of the exceptions listed. *)
Theorem C80_no_surprise : forall word_char parse_string x S, exists S' o, source_ends word_char parse_string x S S' o /\ no_surprise o.
Proof.
  intros wc ps x S. destruct (source_ok wc ps x [] S) as (S' & E). exists S'. eexists. split; [exact E|].
  destruct (snd (mathml_to_latex wc ps x [])) as [s|[t a b c| |c l o|n]]; cbn; eauto.
  all: eexists; eexists; split; [reflexivity|]; cbn; tauto.
Qed.
Print Assumptions C80_no_surprise.

(** The source run on texts: with results, repaired, with each kind of exception; the last memory holds what other calls left. *)
Definition nothing := Memory [] [].
Definition something := Memory [[(lit "flag", lit "0")]; []] [("Char", [("value", VStr (lit "a"))])].
Example C79_example : map (fun x => snd (PySem.run (source_convert no_word parse_text x 40) nothing))
    [lit "<math><mfrac><mi>a</mi><mn>2</mn></mfrac></math>";
     lit "<math><mtable><mtr><mtd><mi>x</mi></mtd></mtr><mtr><mtd><mtable><mtr><mtd><mn>1</mn></mtd></mtr></mtable></mtd></mtr></mtable></math>";
     lit "<math><mi a=""1"" x>b</mi></math>";
     lit "<math><mi>a</mi></maths>";
     lit "<math><mfrac><mi>a</mi></mfrac></math>"]
  = [Done (VStr (lit "\frac{a}{2}"));
     Done (VStr (lit "x \\ \begin{matrix}1\end{matrix}"));
     Done (VStr (lit "b"));
     Raised (parser_error (EExpat 7 1 18));
     Raised (parser_error (EInvalidChildren (lit "mfrac") 2 1 (lit "exactly")))].
Proof. vm_compute. reflexivity. Qed.
Example C79_example_memory : let x := lit "<math><mtable><mtr><mtd><mi>x</mi></mtd></mtr></mtable></math>" in
  snd (PySem.run (source_convert no_word parse_text x 40) nothing) = Done (VStr (lit "x"))
  /\ snd (PySem.run (source_convert no_word parse_text x 40) something) = Done (VStr (lit "x"))
  /\ snd (PySem.run (source_convert no_word parse_text x 3) nothing) = Stuck.
Proof. vm_compute. repeat split. Qed.
(** [no_surprise] refuses other exceptions and other values. *)
Example C80_example : no_surprise (Raised (parser_error EIndex)) /\ ~ no_surprise (Raised key_error) /\ ~ no_surprise (Done VNone).
Proof.
  split; [|split].
  - eexists. eexists. split; [reflexivity|]. cbn. tauto.
  - intros (c & f & E & I). injection E as <- <-. cbn in I. repeat destruct I as [I|I]; try discriminate I. exact I.
  - intros (s & E). discriminate E.
Qed.
