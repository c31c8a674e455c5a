(** C61, C62: the commands and the characters of the output. *)
From Coq Require Import String.
From Verif Require Import SpecExamples LemCommands.
Local Open Scope string_scope.
Local Open Scope list_scope.

(** C61: where mn, mi, mo and fences hold no backslash (a single one in an mi or mo is fine, and so is any text in mtext), every
    command of the output is one of the vocabulary, or one with letters that run into it. *)
Theorem C61_commands : forall word_char parse_string xml d h s k,
  read_as parse_string xml d -> (forall t, In t (math_trees d) -> tame_tree t) ->
  snd (mathml_to_latex word_char parse_string xml h) = Ok s -> In k (tex_tokens s) -> listed_glued k.
Proof. intros wc ps xml d h s k R T E. rewrite (convert_read_snd wc ps xml d h R) in E. apply (document_commands d s T E). Qed.
Print Assumptions C61_commands.
(** None of the vocabulary begins a dangerous command. *)
Theorem C61_harmless : forall word_char parse_string xml d h s w,
  read_as parse_string xml d -> (forall t, In t (math_trees d) -> tame_tree t) ->
  snd (mathml_to_latex word_char parse_string xml h) = Ok s -> In w dangerous -> ~ In (Word w) (tex_tokens s).
Proof.
  intros wc ps xml d h s w R T E D I. apply (C61_commands wc ps xml d h s _ R T E) in I. destruct I as (v & l & V & _ & X).
  assert (Y : forallb (fun w => forallb (fun v => negb (str_eqb (firstn (length v) w) v)) vocabulary) dangerous = true) by (vm_compute; reflexivity).
  rewrite forallb_forall in Y. specialize (Y w D). rewrite forallb_forall in Y. specialize (Y v V).
  assert (Z : firstn (length v) w = v) by (rewrite X, firstn_app, Nat.sub_diag, firstn_all, firstn_O, app_nil_r; reflexivity).
  rewrite Z, str_eqb_refl in Y. discriminate.
Qed.
Print Assumptions C61_harmless.
(** Where nothing runs into a command, each is exactly one of the vocabulary. *)
Theorem C61_exact : forall t s k, tame_tree t -> apart_tree t -> latex_of t = Ok s -> In k (tex_tokens s) -> listed k.
Proof. exact (fun t s k T A E => latex_commands t s T A E k). Qed.
Print Assumptions C61_exact.
Theorem C61_one_formula : forall word_char parse_string xml d h s t k,
  read_as parse_string xml d -> math_trees d = [t] -> tame_tree t -> apart_tree t ->
  snd (mathml_to_latex word_char parse_string xml h) = Ok s -> In k (tex_tokens s) -> listed k.
Proof.
  intros wc ps xml d h s t k R M T A E. rewrite (convert_read_snd wc ps xml d h R) in E. unfold document_latex in E. rewrite M in E. cbn [map rseq] in E.
  destruct (latex_of t) as [x|] eqn:L; [|discriminate E]. cbn [rbind concat] in E. rewrite app_nil_r in E. injection E as <-. apply (latex_commands t x T A L).
Qed.
Print Assumptions C61_one_formula.
(** And LaTeX knows it, unless one of the listed operators, characters or strikes is there. *)
Theorem C61_defined : forall t s w, tame_tree t -> apart_tree t -> known_tree t -> latex_of t = Ok s -> In (Word w) (tex_tokens s) ->
  In w vocabulary /\ ~ In w not_latex.
Proof. exact (fun t s w T A K E => latex_known t s T A K E (Word w)). Qed.
Print Assumptions C61_defined.

(** No word of the vocabulary is superfluous: a formula with all of them. *)
Definition all_commands : tree := el "math" (
  map (fun c => T (lit "mo") [c] [] []) [
   126; 92; 42; 9185; 9184; 8412; 730; 729; 8603; 8711; 8706; 8857; 172; 8738; 247; 8855; 10815; 10799; 8865; 8864;
   8746; 8745; 8719; 11004; 10758; 10757; 10754; 10752; 8897; 8896; 10756; 10780; 10774; 10764; 8752; 10753; 8856;
   8854; 8749; 8748; 8721; 8863; 8862; 177; 11078; 11077; 10740; 10719; 10652; 10649; 10621; 10620; 10619; 10617;
   10614; 10613; 10605; 10604; 10603; 10602; 10601; 10597; 10596; 10595; 10594; 10593; 10592; 10577; 10576; 10564;
   10563; 10561; 10560; 10551; 10550; 10528; 10500; 10499; 10498; 10497; 10234; 10232; 8700; 8698; 8691; 8690; 8689;
   8665; 8663; 8660; 8651; 8650; 8649; 8648; 8647; 8643; 8642; 8639; 8638; 8631; 8630; 8621; 8620; 8619; 8618; 8617;
   8614; 8612; 8608; 8606; 10994; 10983; 10974; 10971; 10956; 10950; 10949; 10948; 10947; 10940; 10939; 10919; 10918;
   10912; 10911; 10898; 10897; 10896; 10895; 10894; 10892; 10891; 10878; 10877; 10872; 10813; 10812; 9723; 10782;
   10781; 10738; 10731; 10727; 10704; 10701; 10685; 10676; 10659; 10657; 9650; 8959; 8958; 8956; 8944; 8933; 8932;
   8929; 8928; 8904; 8903; 8900; 8892; 8887; 8875; 8870; 8848; 8847; 8831; 8830; 8821; 8787; 8766; 8760; 8710; 10928;
   10927; 10888; 10887; 10689; 9678; 9663; 9648; 8921; 8920; 8906; 8905; 8796; 8781; 8775; 8773; 8742; 8733; 8843;
   8842; 8841; 8840; 8713; 8708; 8707; 8704; 8879; 8878; 8877; 8943; 8757; 8756; 8291; 9002; 9001; 8971; 8970; 8969;
   8968; 945; 946; 947; 915; 948; 1013; 950; 951; 952; 920; 953; 954; 955; 957; 959; 960; 928; 961; 963; 931; 964; 965;
   933; 981; 967; 968; 936; 969; 937; 8709; 189; 956; 10003; 8230; 8463; 1009; 8455; 163; 165; 3648; 8224; 8451; 8487;
   581; 8364; 966; 9450]%N
  ++ map (fun c => T (lit "mi") [c] [] []) [
   8236; 8660; 8994; 8501; 8855; 926; 958; 977; 305; 223; 8504; 621; 162; 9829;
   225; 224; 226; 227; 228; 229; 257; 259; 462; 261]%N
  ++ map mo ["&#x2933;"; "&#x2AB0;&#x338;"; "&#x2AAF;&#x338;"; "..."; "%CF%81"]
  ++ [mi "&#xA0;"]
  ++ map (fun v => ela "mi" [("mathvariant", v)] []) ["bold"; "italic"; "double-struck"; "script"; "fraktur"; "sans-serif"; "monospace"]
  ++ map (fun v => T (lit "mtext") (lit "a") [] [(lit "mathvariant", lit v)]) ["bold"; "italic"; "normal"]
  ++ map (fun v => ela "menclose" [("notation", v)] [mi "a"]) ["actuarial"; "box"; "bottom"; "updiagonalstrike"; "downdiagonalstrike";
       "updiagonalarrow"; "verticalstrike"; "phasorangle"]
  ++ [el "mfrac" [mi "a"; mi "b"]; el "msqrt" [mi "a"]; el "merror" [mi "a"]; el "munder" [mi "a"; mi "b"]; el "mover" [mi "a"; mi "b"];
      ela "maction" [("actiontype", "toggle")] [mi "a"; mi "b"]; ela "mfenced" [("open", "["); ("close", "]")] [outer_tab];
      el "mfenced" [mi "a"; mi "b"]]).
Theorem C61_used : exists s, tame_tree all_commands /\ apart_tree all_commands /\ latex_of all_commands = Ok s
  /\ forall w, In w vocabulary -> In (Word w) (tex_tokens s).
Proof.
  destruct (latex_of all_commands) as [s|] eqn:E; [|vm_compute in E; discriminate E]. exists s.
  split; [apply tame_check; vm_compute; reflexivity|]. split; [apply apart_check; vm_compute; reflexivity|]. split; [reflexivity|].
  assert (X : match latex_of all_commands with
              | Ok s => let ts := tex_tokens s in forallb (fun w => existsb (fun k => match k with Word x => str_eqb x w | _ => false end) ts) vocabulary
              | Raise _ => false end = true) by (vm_compute; reflexivity).
  rewrite E in X. cbv zeta in X. rewrite forallb_forall in X. intros w V. specialize (X w V). apply existsb_exists in X as ([x|x|x] & I & Q); try discriminate Q.
  apply str_eqb_eq in Q. subst x. exact I.
Qed.
Print Assumptions C61_used.
Example C61_example : exists s, tame_tree all_commands /\ apart_tree all_commands /\ ~ known_tree all_commands /\ latex_of all_commands = Ok s
  /\ In (Word (lit "geg")) (tex_tokens s).
Proof.
  destruct C61_used as (s & T & A & E & U). exists s. split; [exact T|]. split; [exact A|].
  assert (I : In (Word (lit "geg")) (tex_tokens s)) by (apply U, str_in_spec; vm_compute; reflexivity).
  split; [|split; [exact E|exact I]]. intro K. apply (C61_defined all_commands s (lit "geg") T A K E I). apply str_in_spec. vm_compute. reflexivity.
Qed.
Example C61_known_example : let t := el "math" [mo "\"; leaf "mtext" "\def$"; ela "mfenced" [("separators", ";")] [mi "x"; T (lit "mi") [945%N] [] []]] in
  tame_tree t /\ apart_tree t /\ known_tree t
  /\ latex_of t = Ok (lit "\backslash \backslash\text{def}\$ \left(x;\alpha\right)").
Proof.
  cbv zeta. split; [apply tame_check; vm_compute; reflexivity|]. split; [apply apart_check; vm_compute; reflexivity|].
  split; [apply known_tree_check; vm_compute; reflexivity|]. vm_compute. reflexivity.
Qed.
(** Letters do run into commands: in one text, between two formulas, in fences around a table, with letters as separators. *)
Theorem C61_input_refuted : exists t1 t2 t3 d, tame_tree t1 /\ tame_tree t2 /\ tame_tree t3 /\ (forall t, In t (math_trees d) -> tame_tree t)
  /\ latex_of t1 = Ok (lit "\pix") /\ latex_of t2 = Ok (lit "\left(\input\right)")
  /\ latex_of t3 = Ok (lit "\begin{bmatrix}" ++ nl ++ lit "\input" ++ nl ++ lit "\end{bmatrix}") /\ document_latex d = Ok (lit "\input /etc/passwd")
  /\ ~ listed (Word (lit "pix")) /\ ~ listed (Word (lit "input")).
Proof.
  exists (T (lit "mtext") [960; 119909]%N [] []).
  exists (ela "mfenced" [("separators", "put")] [T (lit "mo") [8712%N] [] []; el "mrow" []; el "mrow" []; el "mrow" []]).
  exists (ela "mfenced" [("open", "["); ("close", "]")] [T (lit "mo") [8712%N] [] []; mi "put"; el "mtable" []]).
  exists [del "r" [del "math" [DElem (lit "mo") [] [DText [8712%N]]]; del "math" [dleaf "mi" "put /etc/passwd"]]].
  split; [apply tame_check; vm_compute; reflexivity|]. split; [apply tame_check; vm_compute; reflexivity|]. split; [apply tame_check; vm_compute; reflexivity|].
  split. { intros t I. apply tame_check. revert t I. apply Forall_forall. vm_compute. repeat constructor. }
  split; [vm_compute; reflexivity|]. split; [vm_compute; reflexivity|]. split; [vm_compute; reflexivity|]. split; [vm_compute; reflexivity|].
  split; intro I; apply str_in_spec in I; vm_compute in I; discriminate I.
Qed.
Print Assumptions C61_input_refuted.
(** A backslash in an mi, mo or mn is copied, and so is the command after it. *)
Theorem C61_backslash_refuted : forall tag, In tag ["mi"; "mo"; "mn"]%string -> exists s, latex_of (leaf tag "\write18{rm x}") = Ok s
  /\ In (Word (lit "write")) (tex_tokens s).
Proof. intros tag [<-|[<-|[<-|[]]]]; (exists (lit "\write18{rm x}"); split; [vm_compute; reflexivity|vm_compute; auto]). Qed.
Print Assumptions C61_backslash_refuted.
(** Commands that LaTeX does not have: for U+2267 (greater than over equal), U+22EF (midline dots), U+2063 (invisible separator). *)
Theorem C61_undefined_refuted : exists t s, tame_tree t /\ apart_tree t /\ latex_of t = Ok s /\ s = lit "\geg \hdots \llbracket"
  /\ forall w, In (Word w) (tex_tokens s) -> In w not_latex.
Proof.
  exists (el "math" [T (lit "mo") [8807%N] [] []; T (lit "mo") [8943%N] [] []; T (lit "mo") [8291%N] [] []]), (lit "\geg \hdots \llbracket").
  split; [apply tame_check; vm_compute; reflexivity|]. split; [apply apart_check; vm_compute; reflexivity|]. split; [vm_compute; reflexivity|].
  split; [reflexivity|]. intros w I. apply str_in_spec.
  assert (X : forallb (fun k => match k with Word w => str_in w not_latex | _ => true end) (tex_tokens (lit "\geg \hdots \llbracket")) = true) by (vm_compute; reflexivity).
  rewrite forallb_forall in X. apply (X _ I).
Qed.
Print Assumptions C61_undefined_refuted.

(** C62: every character of the output is printable ASCII, a line feed, or one of a converted token or fence - or one of six that
    entries of the tables hold. *)
Theorem C62_characters : forall t s c, latex_of t = Ok s -> In c s -> ascii_output c \/ from_input t c \/ In c odd_characters.
Proof. exact (fun t s c E => latex_characters t s E c). Qed.
Print Assumptions C62_characters.
Theorem C62_regular : forall t s c, regular_tree t -> latex_of t = Ok s -> In c s -> ascii_output c \/ from_input t c.
Proof. exact (fun t s c R E => latex_regular t s R E c). Qed.
Print Assumptions C62_regular.
Theorem C62_documents : forall word_char parse_string xml d h s c,
  read_as parse_string xml d -> (forall t, In t (math_trees d) -> regular_tree t) ->
  snd (mathml_to_latex word_char parse_string xml h) = Ok s -> In c s -> ascii_output c \/ exists t, In t (math_trees d) /\ from_input t c.
Proof.
  intros wc ps xml d h s c R T E I. rewrite (convert_read_snd wc ps xml d h R) in E.
  destruct (document_characters (fun t c => ascii_output c \/ from_input t c) d s) with (c := c) as (t & J & [K|K]); auto; [|right; eauto].
  intros t s0 c0 J E0 I0. apply (latex_regular t s0); auto.
Qed.
Print Assumptions C62_documents.
(** So ASCII stays ASCII. *)
Theorem C62_ascii : forall t s, regular_tree t -> (forall c, from_input t c -> ascii_output c) -> latex_of t = Ok s -> Forall ascii_output s.
Proof. intros t s R A E. apply Forall_forall. intros c I. destruct (latex_regular t s R E c I); auto. Qed.
Print Assumptions C62_ascii.
(** A backspace in the output. *)
Theorem C62_backspace_refuted : exists s, latex_of (T (lit "mo") [10743%N] [] []) = Ok s /\ s = lit "hcancel{" ++ [8%N] ++ lit "ackslash}"
  /\ ~ ascii_output 8%N /\ ~ from_input (T (lit "mo") [10743%N] [] []) 8%N.
Proof.
  eexists. split; [vm_compute; reflexivity|]. split; [reflexivity|]. split.
  - intros [H|[H _]]; [discriminate H|]. apply H. reflexivity.
  - intros (u & V & H). inversion V as [|? c ? I ?]; subst; [|destruct I]. cbn [t_name t_value] in H. destruct H as [[_ [H|[]]]|[H _]]; discriminate H.
Qed.
Print Assumptions C62_backspace_refuted.
Example C62_example : let t := el "math" [T (lit "mi") [945%N] [] []; T (lit "mi") [1078%N] [] []; el "mphantom" [T (lit "mi") [1080%N] [] []]] in
  regular_tree t /\ latex_of t = Ok (lit "\alpha " ++ [1078%N]) /\ from_input t 1078%N /\ ~ ascii_output 1078%N.
Proof.
  cbv zeta. split; [apply regular_check; vm_compute; reflexivity|]. split; [vm_compute; reflexivity|]. split.
  - exists (T (lit "mi") [1078%N] [] []). split; [eapply visits_child; [|apply visits_self]; vm_compute; auto|]. left. split; vm_compute; auto.
  - intros [H|[_ H]]; [discriminate H|]. apply H. reflexivity.
Qed.
