(** Characters, by their Unicode code points, and the LaTeX expected for them (C48 - C51).  No definition refers to a table of the library;
    where the lists come from is in DESIGN.md. *)
From Coq Require Import String.
From Verif Require Export SpecTree.
Local Open Scope string_scope.
Local Open Scope list_scope.

(** White space. *)
Definition white_codes : list N :=
  [9; 10; 11; 12; 13; 28; 29; 30; 31; 32; 133; 160; 5760; 8192; 8193; 8194; 8195; 8196; 8197; 8198; 8199; 8200; 8201; 8202;
   8232; 8233; 8239; 8287; 12288]%N.
Definition white (s : str) : Prop := Forall (fun c => In c white_codes) s.
(** The text is this one character, maybe with white space around it. *)
Definition shows (v : str) (c : N) : Prop := exists p q, v = p ++ c :: q /\ white p /\ white q.

(** Capital letters in mathematical fonts: the command, the code point of A, and the letters Unicode has elsewhere. *)
Definition fonts : list (string * N * list (nat * N)) := [
  ("\mathbf", 119808%N, []);
  ("\mathit", 119860%N, []);
  ("\mathcal", 119964%N, [(1, 8492%N); (4, 8496%N); (5, 8497%N); (7, 8459%N); (8, 8464%N); (11, 8466%N); (12, 8499%N); (17, 8475%N)]);
  ("\mathfrak", 120068%N, [(2, 8493%N); (7, 8460%N); (8, 8465%N); (17, 8476%N); (25, 8488%N)]);
  ("\mathbb", 120120%N, [(2, 8450%N); (7, 8461%N); (13, 8469%N); (15, 8473%N); (16, 8474%N); (17, 8477%N); (25, 8484%N)]);
  ("\mathsf", 120224%N, []) ].
Fixpoint elsewhere (l : list (nat * N)) (i : nat) : option N :=
  match l with
  | [] => None
  | (j, c) :: l' => if Nat.eqb i j then Some c else elsewhere l' i
  end.
(** The [i]-th capital (from 0) of a font. *)
Definition capital (first : N) (other : list (nat * N)) (i : nat) : N :=
  match elsewhere other i with Some c => c | None => (first + N.of_nat i)%N end.

(** Digits and number characters. *)
Definition digit (i : nat) : N := (48 + N.of_nat i)%N.
Definition subscript (i : nat) : N := (8320 + N.of_nat i)%N.
Definition superscript (i : nat) : N :=
  match i with 1 => 185%N | 2 => 178%N | 3 => 179%N | _ => (8304 + N.of_nat i)%N end.
Definition circled (i : nat) : N :=
  if Nat.eqb i 0 then 9450%N
  else if Nat.leb i 20 then (9311 + N.of_nat i)%N
  else if Nat.leb i 35 then (12860 + N.of_nat i)%N
  else (12941 + N.of_nat i)%N.
Definition fractions : list (N * nat * nat) :=
  [(188%N, 1, 4); (189%N, 1, 2); (190%N, 3, 4); (8528%N, 1, 7); (8529%N, 1, 9); (8530%N, 1, 10); (8531%N, 1, 3); (8532%N, 2, 3); (8533%N, 1, 5);
   (8534%N, 2, 5); (8535%N, 3, 5); (8536%N, 4, 5); (8537%N, 1, 6); (8538%N, 5, 6); (8539%N, 1, 8); (8540%N, 3, 8); (8541%N, 5, 8); (8542%N, 7, 8)].
(** Decimal numerals below 100. *)
Definition numeral2 (i : nat) : str :=
  if Nat.ltb i 10 then [digit i] else [digit (Nat.div i 10); digit (Nat.modulo i 10)].

(** Greek letters with a command of their own. *)
Definition greek : list (N * string) := [
  (945, "\alpha"); (946, "\beta"); (947, "\gamma"); (948, "\delta"); (949, "\epsilon"); (950, "\zeta"); (951, "\eta");
  (952, "\theta"); (953, "\iota"); (954, "\kappa"); (955, "\lambda"); (956, "\mu"); (957, "\nu"); (958, "\xi"); (960, "\pi");
  (961, "\rho"); (963, "\sigma"); (964, "\tau"); (965, "\upsilon"); (966, "\varphi"); (967, "\chi"); (968, "\psi"); (969, "\omega");
  (915, "\Gamma"); (916, "\Delta"); (920, "\Theta"); (923, "\Lambda"); (926, "\Xi"); (928, "\Pi"); (931, "\Sigma");
  (934, "\Phi"); (936, "\Psi"); (937, "\Omega") ]%N.

(** Latin letters with one accent: the command, then the characters with their letters. *)
Definition accented : list (string * list (N * string)) := [
  ("\acute", [(225, "a"); (233, "e"); (237, "i"); (243, "o"); (250, "u"); (253, "y"); (193, "A"); (201, "E"); (205, "I"); (211, "O");
              (218, "U"); (221, "Y"); (378, "z"); (377, "Z")]);
  ("\grave", [(224, "a"); (232, "e"); (236, "i"); (242, "o"); (249, "u"); (7923, "y"); (192, "A"); (200, "E"); (204, "I"); (210, "O");
              (217, "U"); (7922, "Y")]);
  ("\hat", [(226, "a"); (234, "e"); (238, "i"); (244, "o"); (251, "u"); (375, "y"); (194, "A"); (202, "E"); (206, "I"); (212, "O");
            (219, "U"); (374, "Y"); (309, "j"); (308, "J"); (7825, "z")]);
  ("\tilde", [(227, "a"); (245, "o"); (195, "A"); (213, "O"); (241, "n"); (209, "N"); (7805, "v"); (7804, "V")]);
  ("\ddot", [(228, "a"); (235, "e"); (239, "i"); (246, "o"); (252, "u"); (255, "y"); (196, "A"); (203, "E"); (207, "I"); (214, "O");
             (220, "U"); (376, "Y")]);
  ("\mathring", [(229, "a"); (197, "A"); (8491, "A")]);
  ("\breve", [(259, "a"); (258, "A"); (300, "I")]);
  ("\check", [(462, "a"); (283, "e"); (464, "i"); (466, "o"); (468, "u"); (461, "A"); (282, "E"); (463, "I"); (465, "O"); (467, "U");
              (382, "z"); (381, "Z")]);
  ("\bar", [(257, "a"); (275, "e"); (299, "i"); (333, "o"); (363, "u"); (563, "y"); (256, "A"); (274, "E"); (298, "I"); (332, "O");
            (362, "U"); (562, "Y")]);
  ("\dot", [(559, "o"); (550, "A"); (278, "E"); (558, "O")]) ]%N.

(** ASCII characters that mi does not copy, and those that mo does not copy. *)
Definition mi_ascii : list (N * string) :=
  [(35, "\#"); (36, "\$"); (37, "\%"); (38, "\&"); (92, "\backslash"); (124, "\mid")]%N.
Definition mo_ascii : list (N * string) :=
  [(35, "\#"); (36, "\$"); (37, "\%"); (38, "\&"); (92, "\backslash");
   (40, "\left(\right."); (41, "\left.\right)"); (91, "\left[\right."); (93, "\left]\right."); (123, "\left{\right.");
   (125, "\left.\right}"); (124, "\left|\right."); (42, "\star"); (94, "\hat"); (95, "\underline"); (126, "\sim")]%N.
